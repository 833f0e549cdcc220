(** Decoding of a point for all 2^512 pairs of coordinates. *)
From Coq Require Import ZArith Lia List Bool.
From Coq Require Import ZifyBool ZifyNat ZifyN.
From Verif Require Import Base M_P256 Spec_P256 Spec_Point Spec_Decode256 P_Limbs P_Mult P_P256conv P_Fp P_Points P_Scalar P_P256X.
Import ListNotations.
Open Scope Z_scope.

#[local] Opaque add_no_reduce sub_no_reduce imult isquare P256 ichoose.
(** [add] on any two 256-bit numbers *)
Lemma iadd_low m a b : int256_ok a -> int256_ok b -> limbs_val a + limbs_val b < 2 ^ 256 + p256 ->
  exists v, iadd m a b = Ok v /\ int256_ok v /\
    limbs_val v = (if limbs_val a + limbs_val b <? p256 then limbs_val a + limbs_val b else limbs_val a + limbs_val b - p256).
Proof.
  intros Ha Hb L. unfold iadd, reduce_once. destruct (add_no_reduce_spec a b Ha Hb) as (s & c & E & Hs & Hc & V). rewrite E.
  destruct (sub_no_reduce_spec s P256 Hs P256_ok) as (w & d & E' & Hw & Hd & W). rewrite E'. rewrite P256_val in W.
  pose proof (limbs_val_range s Hs) as Rs. pose proof (limbs_val_range w Hw) as Rw. pose proof p256_bounds as Bp.
  assert (C : c = 0 /\ d = 0 \/ c = 1 /\ d = 1 \/ c = 0 /\ d = 1) by lia.
  assert (D : dassert m (negb ((d =? 0) && (c =? 1))) = Ok tt) by (replace (negb _) with true by lia; destruct m; reflexivity).
  rewrite D. cbn [rbind]. eexists. split; [reflexivity|].
  destruct (Z.ltb_spec (limbs_val a + limbs_val b) p256); destruct C as [[-> ->]|[[-> ->]|[-> ->]]]; try lia.
  - change (Z.lxor 0 1) with 1. rewrite ichoose_1 by assumption. split; [assumption|lia].
  - change (Z.lxor 0 0) with 0. rewrite ichoose_0 by assumption. split; [assumption|lia].
  - change (Z.lxor 1 1) with 0. rewrite ichoose_0 by assumption. split; [assumption|lia].
Qed.
Lemma iadd_high a b : int256_ok a -> int256_ok b -> 2 ^ 256 + p256 <= limbs_val a + limbs_val b ->
  iadd Debug a b = Panic /\ exists v, iadd Release a b = Ok v /\ int256_ok v /\ limbs_val v = limbs_val a + limbs_val b - 2 ^ 256.
Proof.
  intros Ha Hb L. unfold iadd, reduce_once. destruct (add_no_reduce_spec a b Ha Hb) as (s & c & E & Hs & Hc & V). rewrite E.
  destruct (sub_no_reduce_spec s P256 Hs P256_ok) as (w & d & E' & Hw & Hd & W). rewrite E'. rewrite P256_val in W.
  pose proof (limbs_val_range s Hs) as Rs. pose proof (limbs_val_range w Hw) as Rw. pose proof p256_bounds as Bp.
  assert (c = 1 /\ d = 0) as [-> ->] by lia. split; [reflexivity|]. cbn [dassert rbind]. eexists. split; [reflexivity|].
  change (Z.lxor 1 0) with 1. rewrite ichoose_1 by assumption. split; [assumption|lia].
Qed.
#[local] Opaque iadd.
Lemma excess_lit : excess = 2 ^ 224 - 2 ^ 192 - 2 ^ 96 + 1. Proof. reflexivity. Qed.
Lemma excess_p : excess + p256 = 2 ^ 256. Proof. unfold excess. lia. Qed.
(** three times x, as [double] and [add] compute it, for x not below p *)
Lemma triple_high x : int256_ok x -> p256 <= limbs_val x ->
  (~ overstepping (limbs_val x) /\ forall m, exists t, (let* x2 := idouble m x in iadd m x2 x) = Ok t /\ int256_ok t /\ limbs_val t = p256 + 3 * (limbs_val x - p256)) \/
  (overstepping (limbs_val x) /\ (let* x2 := idouble Debug x in iadd Debug x2 x) = Panic /\
   exists t, (let* x2 := idouble Release x in iadd Release x2 x) = Ok t /\ int256_ok t /\ limbs_val t = p256 + (3 * (limbs_val x - p256)) mod excess).
Proof.
  intros Ox H. pose proof (limbs_val_range x Ox) as Rx. pose proof p256_bounds as Bp. pose proof excess_p as Ep.
  unfold overstepping, idouble. set (X := limbs_val x) in *.
  destruct (Z_lt_dec (3 * (X - p256)) excess) as [L|L].
  - left. split; [lia|]. intros m. destruct (iadd_low m x x Ox Ox) as (v & E & Ov & V); [fold X; lia|]. rewrite E. cbn [rbind].
    fold X in V. destruct (Z.ltb_spec (X + X) p256) in V; [lia|].
    destruct (iadd_low m v x Ov Ox) as (t & E' & Ot & T); [fold X; lia|]. exists t. split; [exact E'|]. split; [exact Ot|].
    fold X in T. destruct (Z.ltb_spec (limbs_val v + X) p256) in T; lia.
  - right. split; [lia|]. destruct (Z_lt_dec (X + X) (2 ^ 256 + p256)) as [D|D].
    + assert (V' : forall m, exists v, iadd m x x = Ok v /\ int256_ok v /\ limbs_val v = X + X - p256).
      { intros m. destruct (iadd_low m x x Ox Ox) as (v & E & Ov & V); [fold X; lia|]. exists v. split; [exact E|]. split; [exact Ov|].
        fold X in V. destruct (Z.ltb_spec (X + X) p256) in V; lia. }
      split.
      * destruct (V' Debug) as (v & E & Ov & V). rewrite E. cbn [rbind]. apply iadd_high; [assumption..|fold X; lia].
      * destruct (V' Release) as (v & E & Ov & V). rewrite E. cbn [rbind].
        destruct (iadd_high v x Ov Ox) as (_ & t & E' & Ot & T); [fold X; lia|]. exists t. split; [exact E'|]. split; [exact Ot|].
        fold X in T. rewrite T, V. rewrite <- (Zmod_unique (3 * (X - p256)) excess 1 (3 * (X - p256) - excess)); lia.
    + destruct (iadd_high x x Ox Ox) as (E & v & E' & Ov & V); [fold X; lia|]. fold X in V. rewrite E, E'. cbn [rbind]. split; [reflexivity|].
      destruct (Z_lt_dec (limbs_val v + X) (2 ^ 256 + p256)) as [D'|D'].
      * destruct (iadd_low Release v x Ov Ox) as (t & F & Ot & T); [fold X; lia|]. exists t. split; [exact F|]. split; [exact Ot|].
        fold X in T. destruct (Z.ltb_spec (limbs_val v + X) p256) in T; [lia|].
        rewrite T, V. rewrite <- (Zmod_unique (3 * (X - p256)) excess 1 (3 * (X - p256) - excess)); lia.
      * destruct (iadd_high v x Ov Ox) as (_ & t & F & Ot & T); [fold X; lia|]. exists t. split; [exact F|]. split; [exact Ot|].
        fold X in T. rewrite T, V. rewrite <- (Zmod_unique (3 * (X - p256)) excess 2 (3 * (X - p256) - 2 * excess)); lia.
Qed.
Lemma triple_low m x : reduced x -> exists t, (let* x2 := idouble m x in iadd m x2 x) = Ok t /\ reduced t /\ limbs_val t = (3 * limbs_val x) mod p256.
Proof.
  intros Rx. destruct (idouble_spec m x Rx) as (v & E & Rv & V). rewrite E. cbn [rbind].
  destruct (iadd_spec m v x Rv Rx) as (t & E' & Rt & T). exists t. split; [exact E'|]. split; [exact Rt|].
  rewrite T, V, Zplus_mod_idemp_l. f_equal. lia.
Qed.
(** the rest of the check *)
Definition check (m : mode) (x y t : int256) : res (option npoint) :=
  let* y2 := isquare m y in let* lhs := iadd m y2 t in let* xx := isquare m x in let* x3 := imult m xx x in let* rhs := iadd m x3 B in
  if negb (icompare lhs rhs =? 0) then Ok None else Ok (Some (NPoint x y)).
#[local] Opaque idouble icompare.
Lemma decode_check m x y : int256_ok y -> decode_tail m x y = (let* t := (let* x2 := idouble m x in iadd m x2 x) in check m x y t).
Proof.
  intros Oy. unfold decode_tail, check. destruct (isquare_spec m y Oy) as (y2 & E & _). rewrite E. cbn [rbind].
  destruct (idouble m x); cbn [rbind]; try reflexivity.
Qed.
Lemma B_val : limbs_val B = b256. Proof. reflexivity. Qed.
Lemma rhs_of m x : int256_ok x -> exists xx x3 rhs, isquare m x = Ok xx /\ imult m xx x = Ok x3 /\ iadd m x3 B = Ok rhs /\ reduced rhs /\
  limbs_val rhs = (limbs_val x * limbs_val x * limbs_val x + b256) mod p256.
Proof.
  intros Ox. destruct (isquare_spec m x Ox) as (xx & E & [Oxx _] & V). destruct (imult_spec m xx x Oxx Ox) as (x3 & E' & R3 & V').
  destruct (iadd_spec m x3 B R3 B_red) as (rhs & E'' & Rr & Vr). exists xx, x3, rhs. split; [exact E|]. split; [exact E'|]. split; [exact E''|].
  split; [exact Rr|]. rewrite Vr, V', V, B_val, Zmult_mod_idemp_l, Zplus_mod_idemp_l. reflexivity.
Qed.
(** from p on *)
Lemma check_high m x y t k : int256_ok x -> int256_ok y -> int256_ok t -> p256 <= limbs_val x -> limbs_val t = p256 + k -> 0 <= k < excess ->
  k = (3 * (limbs_val x - p256)) mod excess -> decided (limbs_val x) (limbs_val y) (check m x y t).
Proof.
  intros Ox Oy Ot Hx T K Q. unfold check. destruct (isquare_spec m y Oy) as (y2 & E & [Oy2 Ry2] & V). rewrite E. cbn [rbind].
  pose proof excess_p as Ep. pose proof p256_bounds as Bp. pose proof (limbs_val_range y2 Oy2) as R2.
  destruct (iadd_low m y2 t Oy2 Ot) as (lhs & E' & Ol & Vl); [lia|]. rewrite E'. cbn [rbind].
  destruct (Z.ltb_spec (limbs_val y2 + limbs_val t) p256) in Vl; [lia|].
  destruct (rhs_of m x Ox) as (xx & x3 & rhs & -> & E3 & E4 & [Or Rr] & Vr). cbn [rbind]. rewrite E3. cbn [rbind]. rewrite E4. cbn [rbind].
  rewrite icompare_spec by assumption. unfold decided, welcome.
  destruct (Z.eqb_spec (limbs_val lhs) (limbs_val rhs)) as [Eq|Ne]; cbn [negb Z.eqb]; [left|right].
  - split; [right; split; [assumption|]; rewrite <- Q, <- V, <- Vr; lia|]. eexists. split; [reflexivity|]. cbn [nx ny]. auto.
  - split; [|reflexivity]. intros [[L _]|[_ A]]; [lia|]. rewrite <- Q, <- V, <- Vr in A. lia.
Qed.
Lemma check_low m x y t : reduced x -> int256_ok y -> reduced t -> limbs_val t = (3 * limbs_val x) mod p256 ->
  decided (limbs_val x) (limbs_val y) (check m x y t).
Proof.
  intros [Ox Rx] Oy Rt T. unfold check. destruct (isquare_spec m y Oy) as (y2 & E & Ry2 & V). rewrite E. cbn [rbind].
  destruct (iadd_spec m y2 t Ry2 Rt) as (lhs & E' & [Ol _] & Vl). rewrite E'. cbn [rbind].
  destruct (rhs_of m x Ox) as (xx & x3 & rhs & -> & E3 & E4 & [Or Rr] & Vr). cbn [rbind]. rewrite E3. cbn [rbind]. rewrite E4. cbn [rbind].
  rewrite icompare_spec by assumption. unfold decided, welcome.
  rewrite V, T, Zplus_mod_idemp_l, Zplus_mod_idemp_r in Vl.
  destruct (Z.eqb_spec (limbs_val lhs) (limbs_val rhs)) as [Eq|Ne]; cbn [negb Z.eqb]; [left|right].
  - split; [left; split; [assumption|]; rewrite <- Vl, <- Vr; assumption|]. eexists. split; [reflexivity|]. cbn [nx ny]. auto.
  - split; [|reflexivity]. intros [[_ A]|[L _]]; [|lia]. rewrite <- Vl, <- Vr in A. contradiction.
Qed.
#[local] Opaque check.
Lemma decode_all x y : int256_ok x -> int256_ok y ->
  (~ overstepping (limbs_val x) /\ forall m, decided (limbs_val x) (limbs_val y) (decode_tail m x y)) \/
  (overstepping (limbs_val x) /\ decode_tail Debug x y = Panic /\ decided (limbs_val x) (limbs_val y) (decode_tail Release x y)).
Proof.
  intros Ox Oy. pose proof excess_p as Ep. pose proof p256_bounds as Bp.
  assert (Ex : 0 < excess) by (unfold excess; lia).
  destruct (Z_lt_dec (limbs_val x) p256) as [L|L].
  - left. split; [unfold overstepping; lia|]. intros m. rewrite decode_check by assumption. assert (Rx : reduced x) by (split; assumption).
    destruct (triple_low m x Rx) as (t & -> & Rt & T). cbn [rbind]. apply check_low; assumption.
  - destruct (triple_high x Ox ltac:(lia)) as [[N H]|[O [D (t & E & Ot & T)]]].
    + left. split; [exact N|]. intros m. rewrite decode_check by assumption. destruct (H m) as (t & -> & Ot & T). cbn [rbind].
      assert (K : 0 <= 3 * (limbs_val x - p256) < excess) by (unfold overstepping in N; lia).
      eapply check_high; try eassumption; [lia|]. symmetry. apply Z.mod_small. exact K.
    + right. split; [exact O|]. rewrite !decode_check by assumption. rewrite D, E. cbn [rbind]. split; [reflexivity|].
      eapply check_high; try eassumption; [lia|apply Z.mod_pos_bound; exact Ex|reflexivity].
Qed.
(** on the wire *)
Lemma enc_tail m x y : 0 <= x < 2 ^ 256 -> 0 <= y < 2 ^ 256 -> exists xv yv, int256_ok xv /\ int256_ok yv /\ limbs_val xv = x /\ limbs_val yv = y /\
  from_uncompressed_bytes m (enc x y) = decode_tail m xv yv.
Proof.
  intros Hx Hy. destruct (decode_tail_eq m (enc x y) (enc_length x y) eq_refl) as (xv & yv & Ox & Oy & _ & _ & D & E).
  exists xv, yv. unfold enc in D. apply (f_equal (skipn 1)) in D. cbn [skipn] in D.
  apply app_inj_length in D as [Dx Dy]; [|rewrite be_length, to_bytes_length by assumption; reflexivity].
  split; [assumption|]. split; [assumption|]. split; [|split; [|exact E]].
  - rewrite <- (to_bytes_val xv Ox), <- Dx, be_val_be. apply Z.mod_small. change (256 ^ Z.of_nat 32) with (2 ^ 256). lia.
  - rewrite <- (to_bytes_val yv Oy), <- Dy, be_val_be. apply Z.mod_small. change (256 ^ Z.of_nat 32) with (2 ^ 256). lia.
Qed.
Lemma exact_release x y : 0 <= x < 2 ^ 256 -> 0 <= y < 2 ^ 256 -> decided x y (from_uncompressed_bytes Release (enc x y)).
Proof.
  intros Hx Hy. destruct (enc_tail Release x y Hx Hy) as (xv & yv & Ox & Oy & <- & <- & ->).
  destruct (decode_all xv yv Ox Oy) as [[_ H]|[_ [_ H]]]; [apply H|exact H].
Qed.
Lemma exact_debug x y : 0 <= x < 2 ^ 256 -> 0 <= y < 2 ^ 256 ->
  (overstepping x /\ from_uncompressed_bytes Debug (enc x y) = Panic) \/ (~ overstepping x /\ decided x y (from_uncompressed_bytes Debug (enc x y))).
Proof.
  intros Hx Hy. destruct (enc_tail Debug x y Hx Hy) as (xv & yv & Ox & Oy & <- & <- & ->).
  destruct (decode_all xv yv Ox Oy) as [[N H]|[O [H _]]]; [right; split; [exact N|apply H]|left; auto].
Qed.
(** every string of the right shape is such a pair *)
Lemma every_shape data : length data = 65%nat -> nth 0 data x00 = x04 ->
  exists x y, 0 <= x < 2 ^ 256 /\ 0 <= y < 2 ^ 256 /\ data = enc x y.
Proof.
  intros L T. destruct (decode_tail_eq Release data L T) as (xv & yv & Ox & Oy & _ & _ & D & _).
  exists (limbs_val xv), (limbs_val yv). split; [apply limbs_val_range; assumption|]. split; [apply limbs_val_range; assumption|].
  rewrite D. unfold enc. rewrite !to_bytes_spec by assumption. reflexivity.
Qed.

(** ** the curves *)
Lemma overstepping_0 x : x < 2 ^ 256 -> ~ overstepping x <-> oversteps x = 0.
Proof.
  intros H. pose proof excess_p as Ep. pose proof p256_bounds as Bp. assert (Ex : 0 < excess) by (unfold excess; lia).
  unfold overstepping, oversteps. destruct (Z.ltb_spec x p256) as [L|L]; [split; lia|].
  rewrite Z.div_small_iff by lia. lia.
Qed.
Lemma oversteps_range x : x < 2 ^ 256 -> 0 <= oversteps x <= 2.
Proof.
  intros H. pose proof excess_p as Ep. pose proof p256_bounds as Bp. assert (Ex : 0 < excess) by (unfold excess; lia).
  unfold oversteps. destruct (Z.ltb_spec x p256) as [L|L]; [lia|]. split; [apply Z.div_pos; lia|].
  assert (3 * (x - p256) / excess < 3); [apply Z.div_lt_upper_bound; lia|lia].
Qed.
Lemma eqm_intro a b k : a = b + k * p256 -> a mod p256 = b mod p256.
Proof. intros ->. apply Z_mod_plus_full. Qed.
Lemma eqm_elim a b : a mod p256 = b mod p256 -> exists k, a = b + k * p256.
Proof.
  intros H. exists (a / p256 - b / p256). pose proof (Z.div_mod a p256 p256_ne). pose proof (Z.div_mod b p256 p256_ne). rewrite H in *. lia.
Qed.
Lemma welcome_curve x y : welcome x y -> on_curve_of (b256 + oversteps x * excess) x y.
Proof.
  unfold welcome, on_curve_of, oversteps. intros [[L A]|[L A]].
  - destruct (Z.ltb_spec x p256); [|lia]. apply eqm_elim in A as [k A]. apply eqm_intro with k. lia.
  - destruct (Z.ltb_spec x p256); [lia|]. assert (Ex : excess <> 0) by discriminate.
    pose proof (Z.div_mod (3 * (x - p256)) excess Ex) as D. set (e := 3 * (x - p256) / excess) in *. set (r := (3 * (x - p256)) mod excess) in *.
    pose proof (Z.div_mod (y * y) p256 p256_ne) as D1. pose proof (Z.div_mod (x * x * x + b256) p256 p256_ne) as D2.
    apply eqm_intro with (y * y / p256 - (x * x * x + b256) / p256 + 3). 
    set (u := (y * y) mod p256) in *. set (v := (x * x * x + b256) mod p256) in *. set (q := y * y / p256) in *. set (q' := (x * x * x + b256) / p256) in *.
    lia.
Qed.
Lemma oncurve_int x y : oncurve (Aff (toF x) (toF y)) <-> on_curve_of b256 x y.
Proof.
  rewrite curve_eq. change cB with (toF b256). rewrite <- !toF_mul, <- !toF_add, <- toF_eq. unfold on_curve_of. split; intros H.
  - apply eqm_elim in H as [k H]. apply eqm_intro with k. lia.
  - apply eqm_elim in H as [k H]. apply eqm_intro with k. lia.
Qed.
Lemma welcome_oncurve x y : x < 2 ^ 256 -> welcome x y -> (oncurve (Aff (toF x) (toF y)) <-> ~ overstepping x).
Proof.
  intros Hx A. rewrite oncurve_int, (overstepping_0 x Hx). apply welcome_curve in A. pose proof (oversteps_range x Hx) as R.
  unfold on_curve_of in *. split; intros H.
  - rewrite H in A. apply eqm_elim in A as [k A]. assert (K : oversteps x * excess = - k * p256) by lia. clear A H.
    assert (F : 0 <= oversteps x * excess < p256).
    { rewrite excess_lit, p256_lit. clear K. assert (C : oversteps x = 0 \/ oversteps x = 1 \/ oversteps x = 2) by lia. destruct C as [-> |[-> | ->]]; lia. }
    assert (k = 0) by (pose proof p256_bounds; nia). subst k. assert (Ex : 0 < excess) by reflexivity. nia.
  - rewrite H in A. rewrite A. f_equal.
Qed.
#[local] Opaque from_uncompressed_bytes enc welcome overstepping p256 excess.
(** all byte strings *)
Lemma exact_all m data N : from_uncompressed_bytes m data = Ok (Some N) <->
  int256_ok (nx N) /\ int256_ok (ny N) /\ data = enc (limbs_val (nx N)) (limbs_val (ny N)) /\ welcome (limbs_val (nx N)) (limbs_val (ny N)) /\
  (m = Debug -> ~ overstepping (limbs_val (nx N))).
Proof.
  split.
  - intros H. destruct (Nat.eq_dec (length data) 65) as [L|L]; [|rewrite decode_shape in H by tauto; discriminate H].
    destruct (byte_eq_dec (nth 0 data x00) x04) as [T|T]; [|rewrite decode_shape in H by tauto; discriminate H].
    destruct (every_shape data L T) as (x & y & Hx & Hy & ->).
    assert (D : decided x y (from_uncompressed_bytes m (enc x y)) /\ (m = Debug -> ~ overstepping x)).
    { destruct m.
      - pose proof (exact_debug x y Hx Hy) as K. destruct K as [K|K].
        + destruct K as [O E]. rewrite E in H. discriminate H.
        + destruct K as [O D]. split; [exact D|]. intros _. exact O.
      - split; [exact (exact_release x y Hx Hy)|]. intros M. discriminate M. }
    destruct D as [[[A (N' & E & Ox & Oy & Vx & Vy)]|[_ E]] O]; rewrite E in H; [|discriminate H]. apply Ok_inj in H. injection H as ->.
    rewrite Vx, Vy. auto.
  - intros (Ox & Oy & -> & A & O). pose proof (limbs_val_range _ Ox) as Rx. pose proof (limbs_val_range _ Oy) as Ry.
    set (x := limbs_val (nx N)) in *. set (y := limbs_val (ny N)) in *.
    assert (D : decided x y (from_uncompressed_bytes m (enc x y))).
    { destruct m; [|exact (exact_release x y Rx Ry)]. destruct (exact_debug x y Rx Ry) as [[B0 _]|[_ D]]; [destruct (O eq_refl B0)|exact D]. }
    destruct D as [[_ (N' & E & Ox' & Oy' & Vx & Vy)]|[B0 _]]; [|contradiction]. rewrite E. do 2 f_equal.
    destruct N as [a b0], N' as [a' b']. cbn [nx ny] in *. f_equal; apply int256_inj; assumption.
Qed.
Lemma exact_panic m data : from_uncompressed_bytes m data = Panic <-> m = Debug /\ exists x y, 0 <= x < 2 ^ 256 /\ 0 <= y < 2 ^ 256 /\ overstepping x /\ data = enc x y.
Proof.
  split.
  - intros H. destruct m; [|destruct (decode_release_total data) as [r E]; rewrite E in H; discriminate H]. split; [reflexivity|].
    destruct (Nat.eq_dec (length data) 65) as [L|L]; [|rewrite decode_shape in H by tauto; discriminate H].
    destruct (byte_eq_dec (nth 0 data x00) x04) as [T|T]; [|rewrite decode_shape in H by tauto; discriminate H].
    destruct (every_shape data L T) as (x & y & Hx & Hy & ->). exists x, y. split; [exact Hx|]. split; [exact Hy|]. split; [|reflexivity].
    destruct (exact_debug x y Hx Hy) as [[O _]|[_ [[_ (N & E & _)]|[_ E]]]]; [exact O|rewrite E in H; discriminate H..].
  - intros [-> (x & y & Hx & Hy & O & ->)]. destruct (exact_debug x y Hx Hy) as [[_ E]|[N _]]; [exact E|contradiction].
Qed.
#[local] Transparent from_uncompressed_bytes enc welcome overstepping p256 excess isquare imult iadd idouble icompare add_no_reduce sub_no_reduce P256 ichoose.
(** witnesses: one on each curve, and a point of the curve that is refused *)
Definition mid_x : Z := p256 + excess / 2 + 1.
Definition mid_y : Z := 0x286ec375b1f20003cda2700cb85ac4e0eb1710bbac06ee431cf0d1497c8a06fa.
Lemma three_curves : forall e, e = 0 \/ e = 1 \/ e = 2 -> exists x y, p256 <= x < 2 ^ 256 /\ 0 <= y < 2 ^ 256 /\ welcome x y /\ oversteps x = e.
Proof.
  intros e [-> |[-> | ->]].
  - exists p256, big_y. split; [split; [discriminate|reflexivity]|]. split; [split; [discriminate|reflexivity]|].
    split; [right; split; [discriminate|vm_compute; reflexivity]|vm_compute; reflexivity].
  - exists mid_x, mid_y. split; [split; [discriminate|reflexivity]|]. split; [split; [discriminate|reflexivity]|].
    split; [right; split; [discriminate|vm_compute; reflexivity]|vm_compute; reflexivity].
  - exists off_x, off_y. split; [split; [discriminate|reflexivity]|]. split; [split; [discriminate|reflexivity]|].
    split; [right; split; [discriminate|vm_compute; reflexivity]|vm_compute; reflexivity].
Qed.
Definition lost_x : Z := p256 + 0x55555554ffffffffffffffffffffffffaaaaaaaaaaaaaaa6d4205012.
Definition lost_y : Z := 0x11723ed7eafacb43c5b4274906c542b62fd10de55487a90c68aa3937d0003e0d.
Lemma lost_point : exists x y, 0 <= x < 2 ^ 256 /\ 0 <= y < 2 ^ 256 /\ oncurve (Aff (toF x) (toF y)) /\ ~ overstepping x /\
  forall m, from_uncompressed_bytes m (enc x y) = Ok None.
Proof.
  exists lost_x, lost_y. split; [split; [discriminate|reflexivity]|]. split; [split; [discriminate|reflexivity]|].
  split; [apply oncurve_int; vm_compute; reflexivity|]. split; [intros [_ O]; vm_compute in O; apply O; reflexivity|].
  intros m. destruct m; vm_compute; reflexivity.
Qed.
