(** 256-bit arithmetic of src/crypto/p256.rs against integers modulo p. *)
From Verif Require Export M_P256 Spec_P256 P_Word.
From Coq Require Import ZifyBool ZifyNat ZifyN.

Notation word x := (0 <= x < 2 ^ 32).

Lemma to_w32_mod x : to_w32 x = x mod 2 ^ 32.
Proof. unfold to_w32. change (2 ^ 32 - 1) with (Z.ones 32). apply Z.land_ones. lia. Qed.
Lemma to_w32_word x : word (to_w32 x).
Proof. rewrite to_w32_mod. apply Z.mod_pos_bound. lia. Qed.
Lemma to_w32_small x : word x -> to_w32 x = x.
Proof. intros H. rewrite to_w32_mod. apply Z.mod_small. exact H. Qed.
Lemma w64_small x : 0 <= x < 2 ^ 64 -> w64 x = x.
Proof. apply Z.mod_small. Qed.

Lemma int256_cases v : int256_ok v ->
  exists a b c d e f g h, v = [a; b; c; d; e; f; g; h] /\
    word a /\ word b /\ word c /\ word d /\ word e /\ word f /\ word g /\ word h.
Proof.
  intros [L F].
  destruct v as [|a [|b [|c [|d [|e [|f [|g [|h [|]]]]]]]]]; try discriminate L.
  do 8 (match goal with H : Forall _ (_ :: _) |- _ => inversion H; subst; clear H end).
  eexists _, _, _, _, _, _, _, _. split; [reflexivity|]. tauto.
Qed.
Lemma int256_intro a b c d e f g h :
  word a -> word b -> word c -> word d -> word e -> word f -> word g -> word h -> int256_ok [a; b; c; d; e; f; g; h].
Proof. intros. split; [reflexivity|]. repeat constructor; assumption || lia. Qed.

Lemma limbs_val_range_gen v : Forall (fun x => word x) v -> 0 <= limbs_val v < 2 ^ (32 * zlen v).
Proof.
  induction 1 as [|x v Hx Hv IH]; [cbn; lia|]. cbn [limbs_val]. unfold zlen in *. cbn [length].
  rewrite Nat2Z.inj_succ. replace (32 * Z.succ (Z.of_nat (length v))) with (32 + 32 * Z.of_nat (length v)) by lia.
  rewrite Z.pow_add_r by lia. nia.
Qed.
Lemma limbs_val_range v : int256_ok v -> 0 <= limbs_val v < 2 ^ 256.
Proof. intros [L F]. pose proof (limbs_val_range_gen v F) as H. unfold zlen in H. rewrite L in H. exact H. Qed.
Lemma limbs_val_inj v w : length v = length w -> Forall (fun x => word x) v -> Forall (fun x => word x) w ->
  limbs_val v = limbs_val w -> v = w.
Proof.
  revert w. induction v as [|x v IH]; intros [|y w] L Fv Fw E; try discriminate L; [reflexivity|].
  inversion Fv; inversion Fw; subst. cbn [limbs_val] in E.
  assert (x = y /\ limbs_val v = limbs_val w) as [-> E'] by lia.
  f_equal. apply IH; auto.
Qed.
Lemma int256_inj v w : int256_ok v -> int256_ok w -> limbs_val v = limbs_val w -> v = w.
Proof. intros [L F] [L' F'] E. apply limbs_val_inj; congruence || assumption. Qed.

(** ** choose *)
Lemma choose_0 x y : Z.lxor x (wmul 0 (Z.lxor x y)) = x.
Proof. unfold wmul. rewrite Z.mul_0_l. apply Z.lxor_0_r. Qed.
Lemma choose_1 x y : word x -> word y -> Z.lxor x (wmul 1 (Z.lxor x y)) = y.
Proof.
  intros Hx Hy. unfold wmul. rewrite Z.mul_1_l, Z.mod_small by (apply lxor_range; lia).
  rewrite <- Z.lxor_assoc, Z.lxor_nilpotent. apply Z.lxor_0_l.
Qed.
Lemma ichoose_0 a b : int256_ok a -> ichoose 0 a b = a.
Proof.
  intros Ha. destruct (int256_cases a Ha) as (a0 & a1 & a2 & a3 & a4 & a5 & a6 & a7 & -> & _).
  unfold ichoose. cbn [seq fold_left upd ZERO at_ nth]. rewrite !choose_0. reflexivity.
Qed.
Lemma ichoose_1 a b : int256_ok a -> int256_ok b -> ichoose 1 a b = b.
Proof.
  intros Ha Hb. destruct (int256_cases a Ha) as (a0 & a1 & a2 & a3 & a4 & a5 & a6 & a7 & -> & A).
  destruct (int256_cases b Hb) as (b0 & b1 & b2 & b3 & b4 & b5 & b6 & b7 & -> & B0).
  unfold ichoose. cbn [seq fold_left upd ZERO at_ nth]. rewrite !choose_1 by tauto. reflexivity.
Qed.

(** ** compare *)
Lemma lor_shift_bit d n i : 0 <= n -> 0 <= i -> Z.testbit (Z.lor d (wshr d n)) i = Z.testbit d i || Z.testbit d (i + n).
Proof. intros. unfold wshr. rewrite Z.lor_spec, Z.shiftr_spec by lia. reflexivity. Qed.
Definition smear (diff : Z) : Z :=
  let diff := Z.lor diff (wshr diff 16) in
  let diff := Z.lor diff (wshr diff 8) in
  let diff := Z.lor diff (wshr diff 4) in
  let diff := Z.lor diff (wshr diff 2) in
  let diff := Z.lor diff (wshr diff 1) in
  Z.land diff 1.
Lemma smear_spec d : word d -> smear d = if d =? 0 then 0 else 1.
Proof.
  intros Hd. destruct (Z.eqb_spec d 0) as [->|N]; [reflexivity|].
  unfold smear. cbv zeta.
  match goal with |- Z.land ?x 1 = 1 => set (s := x) end.
  change 1 with (Z.ones 1) at 1. rewrite Z.land_ones by lia. change (2 ^ 1) with 2.
  rewrite <- Z.bit0_mod. change 1 with (Z.b2z true). f_equal. subst s.
  rewrite !lor_shift_bit by lia. cbn [Z.add Pos.add Pos.succ Pos.add_carry].
  assert (Hl : 0 <= Z.log2 d < 32) by (split; [apply Z.log2_nonneg|apply Z.log2_lt_pow2; lia]).
  pose proof (Z.bit_log2 d ltac:(lia)) as Hb.
  assert (C : Z.log2 d = 0 \/ Z.log2 d = 1 \/ Z.log2 d = 2 \/ Z.log2 d = 3 \/ Z.log2 d = 4 \/ Z.log2 d = 5 \/ Z.log2 d = 6 \/ Z.log2 d = 7 \/
    Z.log2 d = 8 \/ Z.log2 d = 9 \/ Z.log2 d = 10 \/ Z.log2 d = 11 \/ Z.log2 d = 12 \/ Z.log2 d = 13 \/ Z.log2 d = 14 \/ Z.log2 d = 15 \/
    Z.log2 d = 16 \/ Z.log2 d = 17 \/ Z.log2 d = 18 \/ Z.log2 d = 19 \/ Z.log2 d = 20 \/ Z.log2 d = 21 \/ Z.log2 d = 22 \/ Z.log2 d = 23 \/
    Z.log2 d = 24 \/ Z.log2 d = 25 \/ Z.log2 d = 26 \/ Z.log2 d = 27 \/ Z.log2 d = 28 \/ Z.log2 d = 29 \/ Z.log2 d = 30 \/ Z.log2 d = 31) by lia.
  repeat (destruct C as [C|C]; [rewrite C in Hb; rewrite Hb, ?orb_true_r; reflexivity|]).
  rewrite C in Hb. rewrite Hb, ?orb_true_r. reflexivity.
Qed.
Definition diff_of (a b : int256) : Z := fold_left (fun d i => Z.lor d (Z.lxor (at_ a i) (at_ b i))) (seq 0 8) 0.
Lemma icompare_smear a b : icompare a b = smear (diff_of a b).
Proof. unfold icompare, smear, diff_of. reflexivity. Qed.
Lemma lor_0_iff a b : Z.lor a b = 0 <-> a = 0 /\ b = 0.
Proof. apply Z.lor_eq_0_iff. Qed.
Lemma icompare_spec a b : int256_ok a -> int256_ok b -> icompare a b = if limbs_val a =? limbs_val b then 0 else 1.
Proof.
  intros Ha Hb.
  assert (E : limbs_val a =? limbs_val b = true <-> a = b).
  { rewrite Z.eqb_eq. split; [apply int256_inj; assumption|congruence]. }
  destruct (int256_cases a Ha) as (a0 & a1 & a2 & a3 & a4 & a5 & a6 & a7 & -> & A).
  destruct (int256_cases b Hb) as (b0 & b1 & b2 & b3 & b4 & b5 & b6 & b7 & -> & B0).
  rewrite icompare_smear. unfold diff_of.
  cbn [seq fold_left at_ nth].
  match goal with |- smear ?x = _ => set (d := x) end.
  rewrite smear_spec by (subst d; repeat (apply lor_range; [lia| |apply lxor_range; lia]); lia).
  assert (D : d = 0 <-> [a0; a1; a2; a3; a4; a5; a6; a7] = [b0; b1; b2; b3; b4; b5; b6; b7]).
  { subst d. rewrite !lor_0_iff, !Z.lxor_eq_0_iff. split.
    - intros H. decompose [and] H. congruence.
    - intros H. injection H as -> -> -> -> -> -> -> ->. tauto. }
  destruct (Z.eqb_spec d 0) as [Z|N].
  - apply D, E in Z. rewrite Z. reflexivity.
  - destruct (limbs_val _ =? limbs_val _); [|reflexivity]. exfalso. apply N, D, E. reflexivity.
Qed.

(** ** addition and subtraction with carry *)
Lemma add_limb x y c : word x -> word y -> 0 <= c <= 1 ->
  exists v c', to_w32 (w64 (w64 (x + y) + c)) = v /\ Z.shiftr (w64 (w64 (x + y) + c)) 32 = c' /\
    word v /\ 0 <= c' <= 1 /\ x + y + c = v + 2 ^ 32 * c'.
Proof.
  intros Hx Hy Hc. eexists _, _. split; [reflexivity|]. split; [reflexivity|].
  rewrite (w64_small (x + y)) by lia. rewrite w64_small by lia.
  rewrite to_w32_mod, Z.shiftr_div_pow2 by lia. split; [apply Z.mod_pos_bound; lia|].
  pose proof (Z.div_mod (x + y + c) (2 ^ 32) ltac:(lia)).
  pose proof (Z.mod_pos_bound (x + y + c) (2 ^ 32) ltac:(lia)). lia.
Qed.
Lemma sub_limb x y c : word x -> word y -> 0 <= c <= 1 ->
  exists v c', to_w32 (w64 (w64 (x - y) - c)) = v /\ Z.shiftr (w64 (w64 (x - y) - c)) 63 = c' /\
    word v /\ 0 <= c' <= 1 /\ x - y - c = v - 2 ^ 32 * c'.
Proof.
  intros Hx Hy Hc. eexists _, _. split; [reflexivity|]. split; [reflexivity|].
  unfold w64. rewrite Zminus_mod_idemp_l. rewrite to_w32_mod, Z.shiftr_div_pow2 by lia.
  split; [apply Z.mod_pos_bound; lia|].
  destruct (Z.ltb_spec (x - y - c) 0) as [N|N].
  - assert (E : (x - y - c) mod 2 ^ 64 = x - y - c + 2 ^ 64).
    { symmetry. apply Z.mod_unique_pos with (-1); lia. }
    rewrite E.
    assert (E1 : (x - y - c + 2 ^ 64) / 2 ^ 63 = 1) by (symmetry; apply Z.div_unique_pos with (x - y - c + 2 ^ 63); lia).
    assert (E2 : (x - y - c + 2 ^ 64) mod 2 ^ 32 = x - y - c + 2 ^ 32)
      by (symmetry; apply Z.mod_unique_pos with (2 ^ 32 - 1); lia).
    rewrite E1, E2. lia.
  - rewrite (Z.mod_small _ (2 ^ 64)) by lia. rewrite Z.mod_small, Z.div_small by lia. lia.
Qed.

Ltac limb_chain L tac :=
  repeat match goal with
  | |- context [to_w32 (w64 (w64 ?s + ?c))] => tac L s c
  end.

Lemma add_no_reduce_spec a b : int256_ok a -> int256_ok b ->
  exists v c, add_no_reduce a b = (v, c) /\ int256_ok v /\ 0 <= c <= 1 /\ limbs_val a + limbs_val b = limbs_val v + 2 ^ 256 * c.
Proof.
  intros Ha Hb. destruct (int256_cases a Ha) as (a0 & a1 & a2 & a3 & a4 & a5 & a6 & a7 & -> & A0 & A1 & A2 & A3 & A4 & A5 & A6 & A7).
  destruct (int256_cases b Hb) as (b0 & b1 & b2 & b3 & b4 & b5 & b6 & b7 & -> & B0 & B1 & B2 & B3 & B4 & B5 & B6 & B7).
  unfold add_no_reduce. cbn [seq fold_left add_step upd ZERO at_ nth]. clear Ha Hb.
  destruct (add_limb a0 b0 0 A0 B0 ltac:(lia)) as (v0 & c0 & -> & -> & V0 & C0 & E0).
  destruct (add_limb a1 b1 c0 A1 B1 C0) as (v1 & c1 & -> & -> & V1 & C1 & E1).
  destruct (add_limb a2 b2 c1 A2 B2 C1) as (v2 & c2 & -> & -> & V2 & C2 & E2).
  destruct (add_limb a3 b3 c2 A3 B3 C2) as (v3 & c3 & -> & -> & V3 & C3 & E3).
  destruct (add_limb a4 b4 c3 A4 B4 C3) as (v4 & c4 & -> & -> & V4 & C4 & E4).
  destruct (add_limb a5 b5 c4 A5 B5 C4) as (v5 & c5 & -> & -> & V5 & C5 & E5).
  destruct (add_limb a6 b6 c5 A6 B6 C5) as (v6 & c6 & -> & -> & V6 & C6 & E6).
  destruct (add_limb a7 b7 c6 A7 B7 C6) as (v7 & c7 & -> & -> & V7 & C7 & E7).
  exists [v0; v1; v2; v3; v4; v5; v6; v7], c7. rewrite to_w32_small by lia.
  split; [reflexivity|]. split; [apply int256_intro; assumption|]. split; [assumption|]. cbn [limbs_val]. lia.
Qed.
Lemma sub_no_reduce_spec a b : int256_ok a -> int256_ok b ->
  exists v c, sub_no_reduce a b = (v, c) /\ int256_ok v /\ 0 <= c <= 1 /\ limbs_val a - limbs_val b = limbs_val v - 2 ^ 256 * c.
Proof.
  intros Ha Hb. destruct (int256_cases a Ha) as (a0 & a1 & a2 & a3 & a4 & a5 & a6 & a7 & -> & A0 & A1 & A2 & A3 & A4 & A5 & A6 & A7).
  destruct (int256_cases b Hb) as (b0 & b1 & b2 & b3 & b4 & b5 & b6 & b7 & -> & B0 & B1 & B2 & B3 & B4 & B5 & B6 & B7).
  unfold sub_no_reduce. cbn [seq fold_left sub_step upd ZERO at_ nth]. clear Ha Hb.
  destruct (sub_limb a0 b0 0 A0 B0 ltac:(lia)) as (v0 & c0 & -> & -> & V0 & C0 & E0).
  destruct (sub_limb a1 b1 c0 A1 B1 C0) as (v1 & c1 & -> & -> & V1 & C1 & E1).
  destruct (sub_limb a2 b2 c1 A2 B2 C1) as (v2 & c2 & -> & -> & V2 & C2 & E2).
  destruct (sub_limb a3 b3 c2 A3 B3 C2) as (v3 & c3 & -> & -> & V3 & C3 & E3).
  destruct (sub_limb a4 b4 c3 A4 B4 C3) as (v4 & c4 & -> & -> & V4 & C4 & E4).
  destruct (sub_limb a5 b5 c4 A5 B5 C4) as (v5 & c5 & -> & -> & V5 & C5 & E5).
  destruct (sub_limb a6 b6 c5 A6 B6 C5) as (v6 & c6 & -> & -> & V6 & C6 & E6).
  destruct (sub_limb a7 b7 c6 A7 B7 C6) as (v7 & c7 & -> & -> & V7 & C7 & E7).
  exists [v0; v1; v2; v3; v4; v5; v6; v7], c7. rewrite to_w32_small by lia.
  split; [reflexivity|]. split; [apply int256_intro; assumption|]. split; [assumption|]. cbn [limbs_val]. lia.
Qed.

Lemma P256_ok : int256_ok P256. Proof. apply int256_intro; lia. Qed.
Lemma ZERO_ok : int256_ok ZERO. Proof. apply int256_intro; lia. Qed.
Lemma ONE_ok : int256_ok ONE. Proof. apply int256_intro; lia. Qed.
Lemma P256_val : limbs_val P256 = p256. Proof. reflexivity. Qed.
Lemma p256_lit : p256 = 115792089210356248762697446949407573530086143415290314195533631308867097853951.
Proof. reflexivity. Qed.
Lemma p256_bounds : 2 ^ 255 < p256 < 2 ^ 256. Proof. rewrite p256_lit. lia. Qed.
Lemma ZERO_red : reduced ZERO. Proof. split; [apply ZERO_ok|]. reflexivity. Qed.
Lemma ONE_red : reduced ONE. Proof. split; [apply ONE_ok|]. reflexivity. Qed.

(** ** reduce_once *)
Lemma reduce_once_spec m a carry : int256_ok a -> 0 <= carry <= 1 -> limbs_val a + 2 ^ 256 * carry < 2 * p256 ->
  exists v, reduce_once m a carry = Ok v /\ reduced v /\ limbs_val v = (limbs_val a + 2 ^ 256 * carry) mod p256.
Proof.
  intros Ha Hc Hp. unfold reduce_once.
  destruct (sub_no_reduce_spec a P256 Ha P256_ok) as (v & c & E & Hv & Hcs & V). rewrite E. rewrite P256_val in V.
  pose proof (limbs_val_range a Ha) as Ra. pose proof (limbs_val_range v Hv) as Rv. pose proof p256_bounds as Bp.
  assert (Dbg : negb ((c =? 0) && (carry =? 1)) = true) by lia.
  rewrite Dbg. assert (Da : dassert m true = Ok tt) by (destruct m; reflexivity). rewrite Da. cbn [rbind].
  assert (C : (c = 0 /\ carry = 0) \/ (c = 1 /\ carry = 1) \/ (c = 1 /\ carry = 0)) by lia.
  destruct C as [[-> ->]|[[-> ->]|[-> ->]]].
  - change (Z.lxor 0 0) with 0. rewrite ichoose_0 by assumption. exists v. split; [reflexivity|].
    split; [split; [assumption|lia]|]. apply Z.mod_unique_pos with 1; lia.
  - change (Z.lxor 1 1) with 0. rewrite ichoose_0 by assumption. exists v. split; [reflexivity|].
    split; [split; [assumption|lia]|]. apply Z.mod_unique_pos with 1; lia.
  - change (Z.lxor 0 1) with 1. rewrite ichoose_1 by assumption. exists a. split; [reflexivity|].
    split; [split; [assumption|lia]|]. rewrite Z.mod_small by lia. lia.
Qed.
Lemma reduce_once_zero_spec m a : int256_ok a ->
  exists v, reduce_once_zero m a = Ok v /\ reduced v /\ limbs_val v = limbs_val a mod p256.
Proof.
  intros Ha. pose proof (limbs_val_range a Ha). pose proof p256_bounds.
  destruct (reduce_once_spec m a 0 Ha ltac:(lia) ltac:(rewrite p256_lit in *; lia)) as (v & E & Hv & V).
  exists v. split; [exact E|]. split; [exact Hv|]. rewrite V. f_equal. lia.
Qed.

(** [add]: exact whenever the sum is below 2p, in particular on reduced inputs *)
Lemma iadd_gen m a b : int256_ok a -> int256_ok b -> limbs_val a + limbs_val b < 2 * p256 ->
  exists v, iadd m a b = Ok v /\ reduced v /\ limbs_val v = (limbs_val a + limbs_val b) mod p256.
Proof.
  intros Ha Hb Hs. unfold iadd. destruct (add_no_reduce_spec a b Ha Hb) as (v & c & E & Hv & Hc & V). rewrite E.
  rewrite V. apply reduce_once_spec; try assumption. lia.
Qed.
Lemma iadd_spec m a b : reduced a -> reduced b ->
  exists v, iadd m a b = Ok v /\ reduced v /\ limbs_val v = (limbs_val a + limbs_val b) mod p256.
Proof. intros [Ha Ra] [Hb Rb]. apply iadd_gen; try assumption. lia. Qed.
Lemma idouble_spec m a : reduced a ->
  exists v, idouble m a = Ok v /\ reduced v /\ limbs_val v = (2 * limbs_val a) mod p256.
Proof. intros H. replace (2 * limbs_val a) with (limbs_val a + limbs_val a) by lia. apply iadd_spec; assumption. Qed.

(** [sub] *)
Lemma isub_gen m a b : int256_ok a -> int256_ok b -> limbs_val b <= limbs_val a + p256 ->
  exists v, isub m a b = Ok v /\ int256_ok v /\
    limbs_val v = if limbs_val b <=? limbs_val a then limbs_val a - limbs_val b else limbs_val a - limbs_val b + p256.
Proof.
  intros Ha Hb Hle. unfold isub.
  destruct (sub_no_reduce_spec a b Ha Hb) as (v & c & E & Hv & Hc & V). rewrite E.
  destruct (add_no_reduce_spec v P256 Hv P256_ok) as (v2 & c2 & E2 & Hv2 & Hc2 & V2). rewrite E2. rewrite P256_val in V2.
  pose proof (limbs_val_range a Ha). pose proof (limbs_val_range b Hb). pose proof (limbs_val_range v Hv).
  pose proof (limbs_val_range v2 Hv2). pose proof p256_bounds.
  assert (Dbg : negb ((c2 =? 0) && (c =? 1)) = true) by lia.
  rewrite Dbg. assert (Da : dassert m true = Ok tt) by (destruct m; reflexivity). rewrite Da. cbn [rbind].
  assert (C : c = 0 \/ c = 1) by lia. destruct C as [-> | ->].
  - rewrite ichoose_0 by assumption. exists v. split; [reflexivity|]. split; [assumption|].
    destruct (Z.leb_spec (limbs_val b) (limbs_val a)); lia.
  - rewrite ichoose_1 by assumption. exists v2. split; [reflexivity|]. split; [assumption|].
    destruct (Z.leb_spec (limbs_val b) (limbs_val a)); lia.
Qed.
Lemma isub_spec m a b : reduced a -> reduced b ->
  exists v, isub m a b = Ok v /\ reduced v /\ limbs_val v = (limbs_val a - limbs_val b) mod p256.
Proof.
  intros [Ha Ra] [Hb Rb]. pose proof (limbs_val_range a Ha). pose proof (limbs_val_range b Hb).
  destruct (isub_gen m a b Ha Hb ltac:(lia)) as (v & E & Hv & V). exists v. split; [exact E|].
  destruct (Z.leb_spec (limbs_val b) (limbs_val a)).
  - split; [split; [assumption|lia]|]. rewrite Z.mod_small; lia.
  - split; [split; [assumption|lia]|]. apply Z.mod_unique_pos with (-1); lia.
Qed.
