(** [mult] of src/crypto/p256.rs: schoolbook product and NIST reduction. *)
From Verif Require Export P_Limbs.
From Coq Require Import ZifyBool ZifyNat ZifyN.

(** unfolding through an equation between constants: the kernel then never has to compare the constant's
    application with its unfolded body, which could make it evaluate the wrong side *)
Ltac unfold_eq f :=
  let b := eval cbv delta [f] in f in
  let E := fresh in assert (E : f = b) by reflexivity; rewrite E; clear E; cbv beta.

Lemma rbind_Ok {A B} (a : A) (f : A -> res B) : rbind (Ok a) f = f a.
Proof. reflexivity. Qed.
(** run one statement of a [let*] sequence; again without conversions that evaluate machine arithmetic *)
Ltac bstep E := rewrite E; clear E; rewrite ?rbind_Ok; cbv beta.

Lemma limbs_val_upd k x l : (k < length l)%nat ->
  limbs_val (upd k x l) = limbs_val l + (x - nth k l 0) * 2 ^ (32 * Z.of_nat k).
Proof.
  revert k. induction l as [|y l IH]; intros k H; [cbn in H; lia|].
  destruct k as [|k].
  - cbn [upd limbs_val nth]. change (2 ^ (32 * Z.of_nat 0)) with 1. lia.
  - cbn [upd limbs_val nth length] in *. rewrite IH by lia.
    rewrite Nat2Z.inj_succ. replace (32 * Z.succ (Z.of_nat k)) with (32 + 32 * Z.of_nat k) by lia.
    rewrite Z.pow_add_r by lia. ring.
Qed.
Lemma Forall_upd {A} (P : A -> Prop) k x l : P x -> Forall P l -> Forall P (upd k x l).
Proof.
  revert k. induction l as [|y l IH]; intros k Hx Hl; [destruct k; constructor|]. inversion Hl; subst.
  destruct k; cbn [upd]; constructor; auto.
Qed.
Lemma Forall_nth0 (P : Z -> Prop) k l : P 0 -> Forall P l -> P (nth k l 0).
Proof.
  revert k. induction l as [|y l IH]; intros k H0 Hl; [destruct k; exact H0|]. inversion Hl; subst. destruct k; cbn; auto.
Qed.

Lemma int256_at a i : int256_ok a -> word (at_ a i).
Proof. intros [_ F]. apply (Forall_nth0 (fun x => word x)); [lia|exact F]. Qed.

(** one step of the double loop adds a_i * b_j * 2^(32(i+j)) and keeps the words small *)
Definition small (t : Z) (w : list Z) : Prop := length w = 16%nat /\ Forall (fun x => 0 <= x <= t * 2 ^ 33) w.
Lemma mul_step_spec a b w i j t : int256_ok a -> int256_ok b -> (i < 8)%nat -> (j < 8)%nat -> 0 <= t < 2 ^ 20 -> small t w ->
  small (t + 1) (mul_step a b w (i, j)) /\
  limbs_val (mul_step a b w (i, j)) = limbs_val w + at_ a i * at_ b j * 2 ^ (32 * Z.of_nat (i + j)).
Proof.
  intros Ha Hb Hi Hj Ht [Lw Fw]. unfold mul_step.
  pose proof (int256_at a i Ha) as Ai. pose proof (int256_at b j Hb) as Bj.
  set (x := at_ a i) in *. set (y := at_ b j) in *. set (k := (i + j)%nat) in *.
  assert (Hk : (k < 15)%nat) by lia.
  assert (Wk : 0 <= at_ w k <= t * 2 ^ 33) by (apply (Forall_nth0 (fun x => 0 <= x <= t * 2 ^ 33)); [lia|exact Fw]).
  assert (Wk1 : 0 <= at_ w (k + 1) <= t * 2 ^ 33) by (apply (Forall_nth0 (fun x => 0 <= x <= t * 2 ^ 33)); [lia|exact Fw]).
  assert (Hxy : 0 <= x * y <= (2 ^ 32 - 1) * (2 ^ 32 - 1)) by (split; [lia|apply Z.mul_le_mono_nonneg; lia]).
  rewrite (w64_small (x * y)) by lia.
  rewrite !to_w32_mod, !Z.shiftr_div_pow2 by lia.
  pose proof (Z.div_mod (x * y) (2 ^ 32) ltac:(lia)) as E1. pose proof (Z.mod_pos_bound (x * y) (2 ^ 32) ltac:(lia)) as R1.
  set (lo := (x * y) mod 2 ^ 32) in *. set (hi := (x * y) / 2 ^ 32) in *.
  assert (Hhi : 0 <= hi < 2 ^ 32) by lia.
  rewrite (w64_small (at_ w k + lo)) by lia.
  pose proof (Z.div_mod (at_ w k + lo) (2 ^ 32) ltac:(lia)) as E2. pose proof (Z.mod_pos_bound (at_ w k + lo) (2 ^ 32) ltac:(lia)) as R2.
  set (wl := (at_ w k + lo) mod 2 ^ 32) in *. set (wh := (at_ w k + lo) / 2 ^ 32) in *.
  assert (Hwh : 0 <= wh <= 2 * t) by lia.
  rewrite (w64_small (hi + wh)) by lia.
  assert (N : at_ (upd k wl w) (k + 1) = at_ w (k + 1)) by (unfold at_; apply upd_nth_other; lia).
  rewrite N. rewrite (w64_small (at_ w (k + 1) + (hi + wh))) by lia.
  split.
  - split; [rewrite !upd_length; exact Lw|].
    apply Forall_upd; [lia|]. apply Forall_upd; [lia|].
    eapply Forall_impl; [|exact Fw]. cbv beta. intros; lia.
  - rewrite limbs_val_upd by (rewrite upd_length; lia). unfold at_ in N. rewrite N.
    rewrite limbs_val_upd by lia. fold (at_ w k). fold (at_ w (k + 1)).
    replace (Z.of_nat (k + 1)) with (Z.of_nat k + 1) by lia.
    replace (32 * (Z.of_nat k + 1)) with (32 * Z.of_nat k + 32) by lia. rewrite Z.pow_add_r by lia.
    set (P := 2 ^ (32 * Z.of_nat k)). change (2 ^ 32) with 4294967296 in *.
    assert (E : x * y = wl - at_ w k + 4294967296 * (hi + wh)) by lia.
    rewrite E. ring.
Qed.

Fixpoint sum_ij (a b : int256) (l : list (nat * nat)) : Z :=
  match l with [] => 0 | (i, j) :: r => at_ a i * at_ b j * 2 ^ (32 * Z.of_nat (i + j)) + sum_ij a b r end.
Lemma mul_loop a b l : forall w t, int256_ok a -> int256_ok b -> Forall (fun ij => (fst ij < 8)%nat /\ (snd ij < 8)%nat) l ->
  0 <= t -> t + zlen l < 2 ^ 20 -> small t w ->
  small (t + zlen l) (fold_left (mul_step a b) l w) /\
  limbs_val (fold_left (mul_step a b) l w) = limbs_val w + sum_ij a b l.
Proof.
  unfold zlen. induction l as [|[i j] l IH]; intros w t Ha Hb Fl Ht Hl Hw.
  - cbn [fold_left sum_ij length]. split; [|lia]. rewrite Z.add_0_r. exact Hw.
  - inversion Fl as [|? ? [Hi Hj] Fl']; subst. cbn [fst snd length fold_left sum_ij] in *.
    destruct (mul_step_spec a b w i j t Ha Hb Hi Hj ltac:(lia) Hw) as [S V].
    destruct (IH (mul_step a b w (i, j)) (t + 1) Ha Hb Fl' ltac:(lia) ltac:(lia) S) as [S' V'].
    split; [|rewrite V', V; lia]. replace (t + Z.of_nat (Datatypes.S (length l))) with (t + 1 + Z.of_nat (length l)) by lia. exact S'.
Qed.
Lemma ijs_range : Forall (fun ij => (fst ij < 8)%nat /\ (snd ij < 8)%nat) ijs.
Proof.
  apply Forall_forall. intros [i j] H. apply in_prod_iff in H as [H1 H2]. apply in_seq in H1, H2. cbn. lia.
Qed.
Lemma sum_ijs a b : int256_ok a -> int256_ok b -> sum_ij a b ijs = limbs_val a * limbs_val b.
Proof.
  intros Ha Hb. destruct (int256_cases a Ha) as (a0 & a1 & a2 & a3 & a4 & a5 & a6 & a7 & -> & _).
  destruct (int256_cases b Hb) as (b0 & b1 & b2 & b3 & b4 & b5 & b6 & b7 & -> & _).
  cbn [sum_ij ijs list_prod seq map app at_ nth limbs_val Nat.add].
  repeat match goal with |- context [2 ^ (32 * Z.of_nat ?n)] =>
    let e := constr:(2 ^ (32 * Z.of_nat n)) in let v := eval vm_compute in e in change e with v end.
  change (2 ^ 32) with 4294967296. ring.
Qed.

(** carry propagation *)
Lemma carry_limb x c : 0 <= x < 2 ^ 40 -> 0 <= c < 2 ^ 40 ->
  exists v c', to_w32 (w64 (x + c)) = v /\ Z.shiftr (w64 (x + c)) 32 = c' /\ word v /\ 0 <= c' < 2 ^ 40 /\ x + c = v + 2 ^ 32 * c'.
Proof.
  intros Hx Hc. eexists _, _. split; [reflexivity|]. split; [reflexivity|].
  rewrite w64_small by lia. rewrite to_w32_mod, Z.shiftr_div_pow2 by lia.
  pose proof (Z.div_mod (x + c) (2 ^ 32) ltac:(lia)). pose proof (Z.mod_pos_bound (x + c) (2 ^ 32) ltac:(lia)). lia.
Qed.
Lemma carry_loop w : length w = 16%nat -> Forall (fun x => 0 <= x < 2 ^ 40) w ->
  exists v c, fold_left (carry_step w) (seq 0 16) (repeat 0 16, 0) = (v, c) /\ length v = 16%nat /\ Forall (fun x => word x) v /\
    0 <= c /\ limbs_val w = limbs_val v + 2 ^ 512 * c.
Proof.
  intros L F.
  destruct w as [|w0 [|w1 [|w2 [|w3 [|w4 [|w5 [|w6 [|w7 [|w8 [|w9 [|w10 [|w11 [|w12 [|w13 [|w14 [|w15 [|]]]]]]]]]]]]]]]]]; try discriminate L.
  repeat (match goal with H : Forall _ (_ :: _) |- _ => inversion H; subst; clear H end).
  cbn [seq fold_left carry_step upd repeat at_ nth].
  destruct (carry_limb w0 0 ltac:(assumption) ltac:(lia)) as (v0 & c0 & -> & -> & V0 & C0 & E0).
  destruct (carry_limb w1 c0 ltac:(assumption) C0) as (v1 & c1 & -> & -> & V1 & C1 & E1).
  destruct (carry_limb w2 c1 ltac:(assumption) C1) as (v2 & c2 & -> & -> & V2 & C2 & E2).
  destruct (carry_limb w3 c2 ltac:(assumption) C2) as (v3 & c3 & -> & -> & V3 & C3 & E3).
  destruct (carry_limb w4 c3 ltac:(assumption) C3) as (v4 & c4 & -> & -> & V4 & C4 & E4).
  destruct (carry_limb w5 c4 ltac:(assumption) C4) as (v5 & c5 & -> & -> & V5 & C5 & E5).
  destruct (carry_limb w6 c5 ltac:(assumption) C5) as (v6 & c6 & -> & -> & V6 & C6 & E6).
  destruct (carry_limb w7 c6 ltac:(assumption) C6) as (v7 & c7 & -> & -> & V7 & C7 & E7).
  destruct (carry_limb w8 c7 ltac:(assumption) C7) as (v8 & c8 & -> & -> & V8 & C8 & E8).
  destruct (carry_limb w9 c8 ltac:(assumption) C8) as (v9 & c9 & -> & -> & V9 & C9 & E9).
  destruct (carry_limb w10 c9 ltac:(assumption) C9) as (v10 & c10 & -> & -> & V10 & C10 & E10).
  destruct (carry_limb w11 c10 ltac:(assumption) C10) as (v11 & c11 & -> & -> & V11 & C11 & E11).
  destruct (carry_limb w12 c11 ltac:(assumption) C11) as (v12 & c12 & -> & -> & V12 & C12 & E12).
  destruct (carry_limb w13 c12 ltac:(assumption) C12) as (v13 & c13 & -> & -> & V13 & C13 & E13).
  destruct (carry_limb w14 c13 ltac:(assumption) C13) as (v14 & c14 & -> & -> & V14 & C14 & E14).
  destruct (carry_limb w15 c14 ltac:(assumption) C14) as (v15 & c15 & -> & -> & V15 & C15 & E15).
  eexists _, _. split; [reflexivity|]. split; [reflexivity|].
  split; [repeat (constructor; [assumption|]); constructor|]. split; [lia|].
  cbn [limbs_val]. clear - E0 E1 E2 E3 E4 E5 E6 E7 E8 E9 E10 E11 E12 E13 E14 E15. lia.
Qed.

(** reduction *)
Lemma mod_lin e P : P <> 0 -> exists k, e mod P = e + P * k.
Proof. intros H. exists (- (e / P)). rewrite Z.mod_eq by exact H. ring. Qed.
Lemma p256_nz : p256 <> 0.
Proof. rewrite p256_lit. discriminate. Qed.
Definition nist_q v8 v9 v10 v11 v12 v13 v14 v15 : Z :=
  v8 + 4294967297 * v9 + 18446744078004518912 * v10 + 79228162532711081667253501951 * v11 +
      340282367000166625977638945021017194495 * v12 + 1461501637671185285124623296161210883009696235519 * v13 +
      6277101736848182401166692341332123086285927382448418586623 * v14 +
      26959946673427741530053695850515137729844644212646842236464328081408 * v15.
Lemma nist_identity v0 v1 v2 v3 v4 v5 v6 v7 v8 v9 v10 v11 v12 v13 v14 v15 :
  limbs_val [v0; v1; v2; v3; v4; v5; v6; v7; v8; v9; v10; v11; v12; v13; v14; v15] =
  limbs_val [v0; v1; v2; v3; v4; v5; v6; v7] + 2 * limbs_val [0; 0; 0; v11; v12; v13; v14; v15] +
  2 * limbs_val [0; 0; 0; v12; v13; v14; v15; 0] + limbs_val [v8; v9; v10; 0; 0; 0; v14; v15] +
  limbs_val [v9; v10; v11; v13; v14; v15; v13; v8] - limbs_val [v11; v12; v13; 0; 0; 0; v8; v10] -
  limbs_val [v12; v13; v14; v15; 0; 0; v9; v11] - limbs_val [v13; v14; v15; v8; v9; v10; 0; v12] -
  limbs_val [v14; v15; 0; v9; v10; v11; 0; v13] + nist_q v8 v9 v10 v11 v12 v13 v14 v15 * p256.
Proof. unfold nist_q. rewrite p256_lit. cbn [limbs_val]. change (2 ^ 32) with 4294967296. ring. Qed.
Lemma nist_combine P T S1 S2 S3 S4 D1 D2 D3 D4 t s1 s2 s3 s4 d1 d2 d3 d4 x1 x2 x3 x4 x5 x6 y1 y2 y3 r : P <> 0 ->
  t = T mod P -> s1 = S1 mod P -> s2 = S2 mod P -> s3 = S3 mod P -> s4 = S4 mod P ->
  d1 = D1 mod P -> d2 = D2 mod P -> d3 = D3 mod P -> d4 = D4 mod P ->
  x1 = (2 * s1) mod P -> x2 = (t + x1) mod P -> x3 = (2 * s2) mod P -> x4 = (x2 + x3) mod P ->
  x5 = (x4 + s3) mod P -> x6 = (x5 + s4) mod P ->
  y1 = (d1 + d2) mod P -> y2 = (y1 + d3) mod P -> y3 = (y2 + d4) mod P -> r = (x6 - y3) mod P ->
  r = (T + 2 * S1 + 2 * S2 + S3 + S4 - D1 - D2 - D3 - D4) mod P.
Proof.
  intros HP Vt V1 V2 V3 V4 W1 W2 W3 W4 Y1 Y2 Y3 Y4 Y5 Y6 Y7 Y8 Y9 Y10.
  Ltac lin Y := match type of Y with _ = ?e mod ?P => let k := fresh "k" in let H := fresh "H" in
    match goal with HP : P <> 0 |- _ => destruct (mod_lin e P HP) as [k H] end; rewrite H in Y; clear H end.
  lin Vt. lin V1. lin V2. lin V3. lin V4. lin W1. lin W2. lin W3. lin W4.
  lin Y1. lin Y2. lin Y3. lin Y4. lin Y5. lin Y6. lin Y7. lin Y8. lin Y9.
  rewrite Y10, Y6, Y5, Y4, Y3, Y2, Y1, Y9, Y8, Y7, Vt, V1, V2, V3, V4, W1, W2, W3, W4.
  match goal with |- ?a mod _ = ?b mod _ =>
    replace a with (b + (k + 2 * k0 + 2 * k1 + k2 + k3 + k8 + k9 + k10 + k11 + k12 + k13 - (k4 + k5 + k6 + k7 + k14 + k15 + k16)) * P) by ring end.
  apply Z.mod_add, HP.
Qed.
(** the nine numbers added and subtracted, as lists built from the product's limbs *)
Definition buf_t (v : list Z) : int256 := blit 0 8 (sub_ v 0 8) ZERO.
Definition buf_s1 (v : list Z) : int256 := blit 3 8 (sub_ v 11 16) ZERO.
Definition buf_s2 (v : list Z) : int256 := blit 3 7 (sub_ v 12 16) ZERO.
Definition buf_s3 (v : list Z) : int256 := upd 7 (at_ v 15) (upd 6 (at_ v 14) (blit 0 3 (sub_ v 8 11) ZERO)).
Definition buf_s4 (v : list Z) : int256 := upd 7 (at_ v 8) (upd 6 (at_ v 13) (blit 3 6 (sub_ v 13 16) (blit 0 3 (sub_ v 9 12) ZERO))).
Definition buf_d1 (v : list Z) : int256 := upd 7 (at_ v 10) (upd 6 (at_ v 8) (blit 0 3 (sub_ v 11 14) ZERO)).
Definition buf_d2 (v : list Z) : int256 := upd 7 (at_ v 11) (upd 6 (at_ v 9) (blit 0 4 (sub_ v 12 16) ZERO)).
Definition buf_d3 (v : list Z) : int256 := upd 7 (at_ v 12) (fold_left (fun buf i => upd (i + 3) (at_ v (i + 8)) (upd i (at_ v (i + 13)) buf)) (seq 0 3) (blit 3 6 (sub_ v 8 11) (blit 0 3 (sub_ v 13 16) ZERO))).
Definition buf_d4 (v : list Z) : int256 := upd 1 (at_ v 15) (upd 0 (at_ v 14) (upd 7 (at_ v 13) (blit 3 6 (sub_ v 9 12) ZERO))).
Lemma bufs_ok v : length v = 16%nat -> Forall (fun x => word x) v ->
  int256_ok (buf_t v) /\ int256_ok (buf_s1 v) /\ int256_ok (buf_s2 v) /\ int256_ok (buf_s3 v) /\ int256_ok (buf_s4 v) /\
  int256_ok (buf_d1 v) /\ int256_ok (buf_d2 v) /\ int256_ok (buf_d3 v) /\ int256_ok (buf_d4 v) /\
  exists q, limbs_val v = limbs_val (buf_t v) + 2 * limbs_val (buf_s1 v) + 2 * limbs_val (buf_s2 v) + limbs_val (buf_s3 v) +
    limbs_val (buf_s4 v) - limbs_val (buf_d1 v) - limbs_val (buf_d2 v) - limbs_val (buf_d3 v) - limbs_val (buf_d4 v) + q * p256.
Proof.
  intros L F.
  destruct v as [|v0 [|v1 [|v2 [|v3 [|v4 [|v5 [|v6 [|v7 [|v8 [|v9 [|v10 [|v11 [|v12 [|v13 [|v14 [|v15 [|]]]]]]]]]]]]]]]]]; try discriminate L.
  repeat (match goal with H : Forall _ (_ :: _) |- _ => inversion H; subst; clear H end).
  assert (Z0 : word 0) by lia.
  do 9 (split; [apply int256_intro; assumption|]).
  exists (nist_q v8 v9 v10 v11 v12 v13 v14 v15). apply nist_identity.
Qed.
Lemma nist_reduce_spec m v : length v = 16%nat -> Forall (fun x => word x) v ->
  exists r, nist_reduce m v = Ok r /\ reduced r /\ limbs_val r = limbs_val v mod p256.
Proof.
  intros L F. destruct (bufs_ok v L F) as (B0 & B1 & B2 & B3 & B4 & B5 & B6 & B7 & B8 & q & Q).
  unfold_eq nist_reduce.
  fold (buf_t v).
  fold (buf_s1 v).
  fold (buf_s2 v).
  fold (buf_s3 v).
  fold (buf_s4 v).
  fold (buf_d1 v).
  fold (buf_d2 v).
  fold (buf_d3 v).
  fold (buf_d4 v).
  destruct (reduce_once_zero_spec m (buf_t v) B0) as (t & E & Rt & Vt). bstep E.
  destruct (reduce_once_zero_spec m (buf_s1 v) B1) as (s1 & E & Rs1 & V1). bstep E.
  destruct (reduce_once_zero_spec m (buf_s2 v) B2) as (s2 & E & Rs2 & V2). bstep E.
  destruct (reduce_once_zero_spec m (buf_s3 v) B3) as (s3 & E & Rs3 & V3). bstep E.
  destruct (reduce_once_zero_spec m (buf_s4 v) B4) as (s4 & E & Rs4 & V4). bstep E.
  destruct (reduce_once_zero_spec m (buf_d1 v) B5) as (d1 & E & Rd1 & W1). bstep E.
  destruct (reduce_once_zero_spec m (buf_d2 v) B6) as (d2 & E & Rd2 & W2). bstep E.
  destruct (reduce_once_zero_spec m (buf_d3 v) B7) as (d3 & E & Rd3 & W3). bstep E.
  destruct (reduce_once_zero_spec m (buf_d4 v) B8) as (d4 & E & Rd4 & W4). bstep E.
  destruct (idouble_spec m s1) as (x1 & E & X1 & Y1); [assumption..|]. bstep E.
  destruct (iadd_spec m t x1) as (x2 & E & X2 & Y2); [assumption..|]. bstep E.
  destruct (idouble_spec m s2) as (x3 & E & X3 & Y3); [assumption..|]. bstep E.
  destruct (iadd_spec m x2 x3) as (x4 & E & X4 & Y4); [assumption..|]. bstep E.
  destruct (iadd_spec m x4 s3) as (x5 & E & X5 & Y5); [assumption..|]. bstep E.
  destruct (iadd_spec m x5 s4) as (x6 & E & X6 & Y6); [assumption..|]. bstep E.
  destruct (iadd_spec m d1 d2) as (y1 & E & X7 & Y7); [assumption..|]. bstep E.
  destruct (iadd_spec m y1 d3) as (y2 & E & X8 & Y8); [assumption..|]. bstep E.
  destruct (iadd_spec m y2 d4) as (y3 & E & X9 & Y9); [assumption..|]. bstep E.
  destruct (isub_spec m x6 y3) as (r & E & X10 & Y10); [assumption..|]. bstep E.
  exists r. split; [reflexivity|]. split; [assumption|].
  rewrite (nist_combine p256 _ _ _ _ _ _ _ _ _ _ _ _ _ _ _ _ _ _ _ _ _ _ _ _ _ _ _ _ p256_nz Vt V1 V2 V3 V4 W1 W2 W3 W4 Y1 Y2 Y3 Y4 Y5 Y6 Y7 Y8 Y9 Y10).
  rewrite Q. symmetry. apply Z.mod_add, p256_nz.
Qed.

Lemma imult_spec m a b : int256_ok a -> int256_ok b ->
  exists v, imult m a b = Ok v /\ reduced v /\ limbs_val v = (limbs_val a * limbs_val b) mod p256.
Proof.
  intros Ha Hb. unfold imult.
  assert (S0 : small 0 (repeat 0 16)) by (split; [reflexivity|]; apply Forall_forall; intros x H; apply repeat_spec in H; lia).
  destruct (mul_loop a b ijs (repeat 0 16) 0 Ha Hb ijs_range ltac:(lia) ltac:(reflexivity) S0) as [[Lw Fw] V].
  set (w := fold_left (mul_step a b) ijs (repeat 0 16)) in *.
  rewrite sum_ijs in V by assumption. change (limbs_val (repeat 0 16)) with 0 in V.
  change (0 + zlen ijs) with 64 in Fw.
  destruct (carry_loop w Lw) as (v & c & E & Lv & Fv & Hc & Vc).
  { eapply Forall_impl; [|exact Fw]. cbv beta. intros; lia. }
  rewrite E. clear E.
  pose proof (limbs_val_range a Ha). pose proof (limbs_val_range b Hb). pose proof (limbs_val_range_gen v Fv) as Rv.
  assert (c = 0) as -> by nia.
  assert (Da : dassert m (0 =? 0) = Ok tt) by (destruct m; reflexivity). rewrite Da. cbn [rbind].
  destruct (nist_reduce_spec m v Lv Fv) as (r & E & R & Vr). exists r. split; [exact E|]. split; [exact R|].
  rewrite Vr. f_equal. lia.
Qed.
Lemma isquare_spec m a : int256_ok a ->
  exists v, isquare m a = Ok v /\ reduced v /\ limbs_val v = (limbs_val a * limbs_val a) mod p256.
Proof. intros Ha. apply imult_spec; assumption. Qed.
