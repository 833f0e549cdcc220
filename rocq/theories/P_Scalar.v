(** Scalar multiplication and point decoding of src/crypto/p256.rs. *)
From Coq Require Import ZArith Znumtheory Lia List Bool.
From Coq Require Import ZifyBool ZifyNat ZifyN.
From Verif Require Import Base M_P256 Spec_P256 Spec_Point P_Limbs P_Mult P_P256conv NT_Prime NT_P256 P_Inverse P_Fp P_Points NT_Order.
Import ListNotations.
Open Scope Z_scope.
#[local] Opaque imult isquare iadd isub iinverse divide_by_2 icompare finv toF pdouble ppadd pchoose.

Definition bit_of (n : int256) (ij : nat * nat) : Z := Z.land (wshr (at_ n (fst ij)) (Z.of_nat (snd ij))) 1.
Lemma bit_of_eq n i j : bit_of n (i, j) = at_ n i / 2 ^ Z.of_nat j mod 2.
Proof. unfold bit_of, wshr. cbn [fst snd]. rewrite land_1, Z.shiftr_div_pow2 by lia. reflexivity. Qed.
Lemma bit_of_01 n ij : bit_of n ij = 0 \/ bit_of n ij = 1.
Proof. destruct ij. rewrite bit_of_eq. pose proof (Z.mod_pos_bound (at_ n n0 / 2 ^ Z.of_nat n1) 2 ltac:(lia)). lia. Qed.
Definition bits (n : int256) (l : list (nat * nat)) (k : Z) : Z := fold_left (fun k ij => 2 * k + bit_of n ij) l k.
Lemma bits_nn n l : forall k, 0 <= k -> 0 <= bits n l k.
Proof. induction l as [|ij l IH]; intros k Hk; [exact Hk|]. apply IH. destruct (bit_of_01 n ij); lia. Qed.

Lemma scalar_step_spec m P n R k ij : pok P -> oncurve (jac P) -> pok R -> 0 <= k -> jac R = nmul (Z.to_nat k) (jac P) ->
  exists R', scalar_step m P n R ij = Ok R' /\ pok R' /\ jac R' = nmul (Z.to_nat (2 * k + bit_of n ij)) (jac P).
Proof.
  intros HP OP HR Hk J. unfold scalar_step. destruct ij as [i j].
  destruct (pdouble_spec m R HR) as (R2 & E & H2 & J2 & _). bstep E.
  assert (J2' : jac R2 = nmul (Z.to_nat (2 * k)) (jac P)).
  { rewrite J2, J, <- nmul_add by assumption. f_equal. lia. }
  assert (O2 : oncurve (jac R2)) by (rewrite J2'; apply on_nmul; assumption).
  destruct (ppadd_spec m R2 P H2 HP O2 OP) as (R3 & E & H3 & J3). bstep E.
  assert (J3' : jac R3 = nmul (Z.to_nat (2 * k + 1)) (jac P)).
  { rewrite J3, J2', nmul_S by lia. apply eadd_comm; [apply on_nmul|]; assumption. }
  change (Z.land (wshr (at_ n i) (Z.of_nat j)) 1) with (bit_of n (i, j)).
  destruct (bit_of_01 n (i, j)) as [-> | ->].
  - rewrite pchoose_0 by assumption. exists R2. rewrite Z.add_0_r. auto.
  - rewrite pchoose_1 by assumption. exists R3. auto.
Qed.
Lemma scalar_loop_spec m P n l : pok P -> oncurve (jac P) -> forall R k, pok R -> 0 <= k -> jac R = nmul (Z.to_nat k) (jac P) ->
  exists R', scalar_loop m P n l R = Ok R' /\ pok R' /\ jac R' = nmul (Z.to_nat (bits n l k)) (jac P).
Proof.
  intros HP OP. induction l as [|ij l IH]; intros R k HR Hk J.
  - exists R. auto.
  - cbn [scalar_loop]. destruct (scalar_step_spec m P n R k ij HP OP HR Hk J) as (R1 & E & H1 & J1). bstep E.
    apply IH; try assumption. destruct (bit_of_01 n ij); lia.
Qed.
Lemma bits8 x : 0 <= x ->
  2 * (2 * (2 * (2 * (2 * (2 * (2 * (x / 2 ^ 7 mod 2) + x / 2 ^ 6 mod 2) + x / 2 ^ 5 mod 2) + x / 2 ^ 4 mod 2) + x / 2 ^ 3 mod 2) + x / 2 ^ 2 mod 2) + x / 2 ^ 1 mod 2) + x / 2 ^ 0 mod 2 = x mod 256.
Proof. intros H. Z.to_euclidean_division_equations. lia. Qed.
Lemma bits_app n l1 l2 k : bits n (l1 ++ l2) k = bits n l2 (bits n l1 k).
Proof. apply fold_left_app. Qed.
Lemma bits_limb n i k : word (at_ n i) ->
  bits n (map (pair i) (rev (seq 0 8))) k = 256 * k + at_ n i mod 256.
Proof.
  intros H. cbn [seq rev app map bits fold_left]. rewrite !bit_of_eq. cbn [Z.of_nat Pos.of_succ_nat Pos.succ].
  rewrite <- (bits8 (at_ n i)) by lia. ring.
Qed.
Lemma bits_eff n : int256_ok n -> bits n scalar_ijs 0 = eff_scalar n.
Proof.
  intros Hn. unfold scalar_ijs.
  change (list_prod (rev (seq 0 7)) (rev (seq 0 8))) with
    (map (pair 6%nat) (rev (seq 0 8)) ++ map (pair 5%nat) (rev (seq 0 8)) ++ map (pair 4%nat) (rev (seq 0 8)) ++ map (pair 3%nat) (rev (seq 0 8)) ++
     map (pair 2%nat) (rev (seq 0 8)) ++ map (pair 1%nat) (rev (seq 0 8)) ++ map (pair 0%nat) (rev (seq 0 8))).
  rewrite !bits_app, !bits_limb by (apply int256_at; assumption). unfold eff_scalar, at_. ring.
Qed.
Lemma eff_scalar_range n : 0 <= eff_scalar n < 2 ^ 56.
Proof.
  unfold eff_scalar.
  pose proof (Z.mod_pos_bound (nth 0 n 0) 256 ltac:(lia)). pose proof (Z.mod_pos_bound (nth 1 n 0) 256 ltac:(lia)).
  pose proof (Z.mod_pos_bound (nth 2 n 0) 256 ltac:(lia)). pose proof (Z.mod_pos_bound (nth 3 n 0) 256 ltac:(lia)).
  pose proof (Z.mod_pos_bound (nth 4 n 0) 256 ltac:(lia)). pose proof (Z.mod_pos_bound (nth 5 n 0) 256 ltac:(lia)).
  pose proof (Z.mod_pos_bound (nth 6 n 0) 256 ltac:(lia)). lia.
Qed.
Theorem mult_scalar_spec m P n : pok P -> oncurve (jac P) -> int256_ok n ->
  exists R, mult_scalar m P n = Ok R /\ pok R /\ jac R = nmul (Z.to_nat (eff_scalar n)) (jac P).
Proof.
  intros HP OP Hn. rewrite <- bits_eff by assumption. unfold mult_scalar. apply scalar_loop_spec; try assumption.
  - apply INFTY_pok.
  - lia.
  - apply INFTY_jac.
Qed.

(** ** the base point *)
Lemma G_pok : pok G.
Proof. apply pok_red; [| |apply ONE_red]; split; try reflexivity; split; try reflexivity; repeat constructor; lia. Qed.
Lemma affine_1 x y : affine x y f1 = Aff x y.
Proof.
  rewrite affine_n by (intros E; apply (f_equal fval) in E; discriminate E).
  rewrite (EC_Jac.div_1 Fth x), (EC_Jac.div_1' Fth y). reflexivity.
Qed.
Lemma G_jac : jac G = Gpt.
Proof. unfold jac. cbn [px py pz G]. rewrite fv_ONE, affine_1. reflexivity. Qed.

(** ** decoding *)
Lemma sec1_split data : length data = 65%nat -> exists t xb yb, data = t :: xb ++ yb /\ length xb = 32%nat /\ length yb = 32%nat /\
  nth 0 data x00 = t /\ firstn 32 (skipn 1 data) = xb /\ firstn 32 (skipn 33 data) = yb.
Proof.
  intros L. destruct data as [|t data]; [discriminate|]. cbn [length] in L. injection L as L.
  exists t, (firstn 32 data), (skipn 32 data). rewrite firstn_skipn. repeat split.
  - rewrite firstn_length. lia.
  - rewrite skipn_length. lia.
  - cbn [skipn]. change (firstn 32 (skipn 32 data) = skipn 32 data). apply firstn_all2. rewrite skipn_length. lia.
Qed.

Lemma curve_eq (X Y : Fp) : oncurve (Aff X Y) <->
  fadd (fmul Y Y) (fadd (fadd X X) X) = fadd (fmul (fmul X X) X) cB.
Proof. exact (EC_Jac.curve_form Fth cB cA_eq X Y). Qed.
Lemma B_red : reduced B.
Proof. split; [split; [reflexivity|repeat constructor; lia]|reflexivity]. Qed.
Lemma fv_B : fv B = cB. Proof. reflexivity. Qed.
Lemma fv_inj a b : reduced a -> reduced b -> (limbs_val a = limbs_val b <-> fv a = fv b).
Proof.
  intros [Ha Ra] [Hb Rb]. unfold fv. rewrite <- toF_eq. pose proof (limbs_val_range a Ha). pose proof (limbs_val_range b Hb).
  rewrite !Z.mod_small by lia. reflexivity.
Qed.
(** wrong length or tag *)
Lemma decode_shape m data : ~ (length data = 65%nat /\ nth 0 data x00 = x04) -> from_uncompressed_bytes m data = Ok None.
Proof.
  intros H. unfold from_uncompressed_bytes. destruct (zlen data =? 65) eqn:L; [|reflexivity]. cbn [negb].
  destruct (beqb (nth 0 data x00) x04) eqn:T; [|reflexivity]. exfalso. apply H. split; [unfold zlen in L; lia|apply beqb_eq; exact T].
Qed.
Definition decode_tail (m : mode) (x y : int256) : res (option npoint) :=
  let* y2 := isquare m y in
  let* x2 := idouble m x in
  let* x3_ := iadd m x2 x in
  let* lhs := iadd m y2 x3_ in
  let* xx := isquare m x in
  let* x3 := imult m xx x in
  let* rhs := iadd m x3 B in
  if negb (icompare lhs rhs =? 0) then Ok None else Ok (Some (NPoint x y)).
Lemma decode_tail_eq m data : length data = 65%nat -> nth 0 data x00 = x04 ->
  exists x y, int256_ok x /\ int256_ok y /\ limbs_val x = be_val (firstn 32 (skipn 1 data)) /\ limbs_val y = be_val (skipn 33 data) /\
    data = x04 :: to_bytes x ++ to_bytes y /\ from_uncompressed_bytes m data = decode_tail m x y.
Proof.
  intros L T. destruct (sec1_split data L) as (t & xb & yb & E & Lx & Ly & Et & Ex & Ey).
  destruct (from_bytes_some xb Lx) as (x & Fx & Ox & Vx). destruct (from_bytes_some yb Ly) as (y & Fy & Oy & Vy).
  exists x, y. split; [assumption|]. split; [assumption|]. rewrite Ex.
  assert (Sk : skipn 33 data = yb) by (rewrite <- Ey; symmetry; apply firstn_all2; rewrite skipn_length; lia). rewrite Sk.
  split; [assumption|]. split; [assumption|]. split.
  - rewrite (to_from_bytes xb x Fx), (to_from_bytes yb y Fy). rewrite <- T, Et. exact E.
  - unfold from_uncompressed_bytes, decode_tail. unfold zlen. rewrite L, T. change (negb (Z.of_nat 65 =? 65)) with false.
    change (negb (beqb x04 x04)) with false. cbv iota. rewrite Ex, Ey, Fx, Fy. reflexivity.
Qed.
Lemma decode_canonical m x y : reduced x -> reduced y ->
  decode_tail m x y = Ok (Some (NPoint x y)) /\ oncurve (Aff (fv x) (fv y)) \/
  decode_tail m x y = Ok None /\ ~ oncurve (Aff (fv x) (fv y)).
Proof.
  intros Rx Ry. unfold_eq decode_tail.
  destruct (isquare_F m y (proj1 Ry)) as (y2 & E & Ry2 & Fy2). bstep E.
  unfold idouble. destruct (iadd_F m x x Rx Rx) as (x2 & E & Rx2 & Fx2). bstep E.
  destruct (iadd_F m x2 x Rx2 Rx) as (x3 & E & Rx3 & Fx3). bstep E.
  destruct (iadd_F m y2 x3 Ry2 Rx3) as (lhs & E & Rl & Fl). bstep E.
  destruct (isquare_F m x (proj1 Rx)) as (xx & E & Rxx & Fxx). bstep E.
  destruct (imult_F m xx x (proj1 Rxx) (proj1 Rx)) as (x3' & E & Rx3' & Fx3'). bstep E.
  destruct (iadd_F m x3' B Rx3' B_red) as (rhs & E & Rr & Fr). bstep E.
  rewrite icompare_spec by (apply Rl || apply Rr). pose proof (fv_inj lhs rhs Rl Rr) as Q.
  rewrite Fl, Fr, Fy2, Fx3, Fx2, Fx3', Fxx, fv_B in Q. rewrite <- curve_eq in Q.
  destruct (Z.eqb_spec (limbs_val lhs) (limbs_val rhs)) as [Eq|Ne]; [left|right]; (split; [reflexivity|]); tauto.
Qed.

(** *** outside the canonical range *)
Lemma Ok_inj {A} (a b : A) : Ok a = Ok b -> a = b. Proof. congruence. Qed.
#[local] Transparent iadd.
Lemma iadd_release a b : int256_ok a -> int256_ok b -> exists v, iadd Release a b = Ok v /\ int256_ok v.
Proof.
  intros Ha Hb. unfold iadd, reduce_once. destruct (add_no_reduce_spec a b Ha Hb) as (v & c & E & Hv & Hc & V). rewrite E.
  destruct (sub_no_reduce_spec v P256 Hv P256_ok) as (w & d & E' & Hw & Hd & W). rewrite E'. cbn [dassert rbind].
  assert (C : Z.lxor c d = 0 \/ Z.lxor c d = 1).
  { assert (c = 0 \/ c = 1) as [-> | ->] by lia; assert (d = 0 \/ d = 1) as [-> | ->] by lia; auto. }
  eexists. split; [reflexivity|]. destruct C as [-> | ->]; [rewrite ichoose_0 by assumption|rewrite ichoose_1 by assumption]; assumption.
Qed.
Lemma iadd_debug a b : int256_ok a -> int256_ok b ->
  iadd Debug a b = Panic \/ exists v, iadd Debug a b = Ok v /\ int256_ok v /\ fv v = fadd (fv a) (fv b).
Proof.
  intros Ha Hb. unfold_eq iadd. unfold_eq reduce_once. destruct (add_no_reduce_spec a b Ha Hb) as (s & c & E & Hs & Hc & V). rewrite E.
  destruct (sub_no_reduce_spec s P256 Hs P256_ok) as (w & d & E' & Hw & Hd & W). rewrite E'. rewrite P256_val in W.
  pose proof (limbs_val_range s Hs). pose proof (limbs_val_range w Hw).
  destruct (negb ((d =? 0) && (c =? 1))) eqn:G0; cbn [dassert rbind]; [right|left; reflexivity].
  eexists. split; [reflexivity|]. unfold fv. rewrite <- toF_add, V.
  assert (C : c = 0 /\ d = 0 \/ c = 1 /\ d = 1 \/ c = 0 /\ d = 1) by lia. destruct C as [[-> ->]|[[-> ->]|[-> ->]]].
  - change (Z.lxor 0 0) with 0. rewrite ichoose_0 by assumption. split; [assumption|].
    apply toF_eq. rewrite <- (add_p_mod (limbs_val w)). f_equal. lia.
  - change (Z.lxor 1 1) with 0. rewrite ichoose_0 by assumption. split; [assumption|].
    apply toF_eq. rewrite <- (add_p_mod (limbs_val w)). f_equal. lia.
  - change (Z.lxor 0 1) with 1. rewrite ichoose_1 by assumption. split; [assumption|].
    apply toF_eq. f_equal. lia.
Qed.
#[local] Opaque iadd.
Lemma decode_release x y : int256_ok x -> int256_ok y ->
  decode_tail Release x y = Ok None \/ decode_tail Release x y = Ok (Some (NPoint x y)).
Proof.
  intros Ox Oy. unfold_eq decode_tail.
  destruct (isquare_F Release y Oy) as (y2 & E & Ry2 & Fy2). bstep E.
  unfold idouble. destruct (iadd_release x x Ox Ox) as (x2 & E & Rx2). bstep E.
  destruct (iadd_release x2 x Rx2 Ox) as (x3 & E & Rx3). bstep E.
  destruct (iadd_release y2 x3 (proj1 Ry2) Rx3) as (lhs & E & Rl). bstep E.
  destruct (isquare_F Release x Ox) as (xx & E & Rxx & Fxx). bstep E.
  destruct (imult_F Release xx x (proj1 Rxx) Ox) as (x3' & E & Rx3' & Fx3'). bstep E.
  destruct (iadd_F Release x3' B Rx3' B_red) as (rhs & E & Rr & Fr). bstep E.
  destruct (negb (icompare lhs rhs =? 0)); auto.
Qed.
Lemma decode_debug x y : int256_ok x -> int256_ok y ->
  decode_tail Debug x y = Panic \/ decode_tail Debug x y = Ok None \/
  decode_tail Debug x y = Ok (Some (NPoint x y)) /\ oncurve (Aff (fv x) (fv y)).
Proof.
  intros Ox Oy. unfold_eq decode_tail.
  destruct (isquare_F Debug y Oy) as (y2 & E & Ry2 & Fy2). bstep E.
  unfold idouble. destruct (iadd_debug x x Ox Ox) as [E|(x2 & E & Rx2 & Fx2)]; [rewrite E; left; reflexivity|bstep E].
  destruct (iadd_debug x2 x Rx2 Ox) as [E|(x3 & E & Rx3 & Fx3)]; [rewrite E; left; reflexivity|bstep E].
  destruct (iadd_debug y2 x3 (proj1 Ry2) Rx3) as [E|(lhs & E & Rl & Fl)]; [rewrite E; left; reflexivity|bstep E].
  destruct (isquare_F Debug x Ox) as (xx & E & Rxx & Fxx). bstep E.
  destruct (imult_F Debug xx x (proj1 Rxx) Ox) as (x3' & E & Rx3' & Fx3'). bstep E.
  destruct (iadd_F Debug x3' B Rx3' B_red) as (rhs & E & Rr & Fr). bstep E. right.
  rewrite icompare_spec by (assumption || apply Rr).
  destruct (Z.eqb_spec (limbs_val lhs) (limbs_val rhs)) as [Eq|Ne]; [right|left; reflexivity].
  split; [reflexivity|]. apply curve_eq. rewrite <- Fy2, <- Fx2, <- Fx3, <- Fl, <- Fxx, <- Fx3', <- fv_B, <- Fr. unfold fv. congruence.
Qed.

(** ** Diffie-Hellman *)
Lemma to_point_pok N : int256_ok (nx N) -> int256_ok (ny N) -> pok (to_point N).
Proof. intros Hx Hy. split; [assumption|]. split; [assumption|]. split; [apply ONE_red|]. right. reflexivity. Qed.
Lemma to_point_jac N : jac (to_point N) = Aff (fv (nx N)) (fv (ny N)).
Proof. unfold jac, to_point. cbn [px py pz]. rewrite fv_ONE. apply affine_1. Qed.
(** addition never fails on well-formed representations, on the curve or not *)
Lemma scalar_step_total m P n R ij : pok P -> pok R -> exists R', scalar_step m P n R ij = Ok R' /\ pok R'.
Proof.
  intros HP HR. unfold scalar_step. destruct ij as [i j].
  destruct (pdouble_spec m R HR) as (R2 & E & H2 & _). bstep E.
  destruct (ppadd_gen m R2 P H2 HP) as (R3 & E & H3 & _). bstep E.
  change (Z.land (wshr (at_ n i) (Z.of_nat j)) 1) with (bit_of n (i, j)). destruct (bit_of_01 n (i, j)) as [-> | ->].
  - rewrite pchoose_0 by assumption. exists R2. auto.
  - rewrite pchoose_1 by assumption. exists R3. auto.
Qed.
Lemma mult_scalar_total m P n : pok P -> exists R, mult_scalar m P n = Ok R /\ pok R.
Proof.
  intros HP. unfold mult_scalar. generalize scalar_ijs. intros l. generalize INFTY_pok. generalize INFTY.
  induction l as [|ij l IH]; intros R HR; cbn [scalar_loop]; [exists R; auto|].
  destruct (scalar_step_total m P n R ij HP HR) as (R1 & E & H1). bstep E. apply IH. assumption.
Qed.

(** the degenerate public value (0, 0): every multiple normalises to (0, 0) *)
Definition degenerate (P R : point) : Prop := fv (pz R) = f0 \/ R = P.
Lemma degenerate_step m P n R ij : pok P -> pok R -> fv (px P) = f0 -> fv (py P) = f0 -> fv (pz P) <> f0 -> degenerate P R ->
  exists R', scalar_step m P n R ij = Ok R' /\ pok R' /\ degenerate P R'.
Proof.
  intros HP HR PX PY PZ HD. unfold scalar_step. destruct ij as [i j].
  destruct (pdouble_spec m R HR) as (R2 & E & H2 & J2 & _). bstep E.
  assert (Z2 : fv (pz R2) = f0).
  { assert (J : jac R2 = Inf).
    { rewrite J2. destruct HD as [D| ->].
      - unfold jac. rewrite affine_0 by assumption. reflexivity.
      - unfold jac. rewrite PX, PY, affine_n by assumption.
        exact (EC_Jac.double_y0 Fth feq_dec cA (fdiv f0 (fmul (fv (pz P)) (fv (pz P)))) PZ). }
    unfold jac, affine in J. destruct (feq_dec (fv (pz R2)) f0) as [Z0|Z0]; [exact Z0|discriminate J]. }
  destruct (ppadd_gen m R2 P H2 HP) as (R3 & E & H3 & _ & K). bstep E. specialize (K Z2 PZ). subst R3.
  change (Z.land (wshr (at_ n i) (Z.of_nat j)) 1) with (bit_of n (i, j)). destruct (bit_of_01 n (i, j)) as [-> | ->].
  - rewrite pchoose_0 by assumption. exists R2. split; [reflexivity|]. split; [assumption|]. left. assumption.
  - rewrite pchoose_1 by assumption. exists P. split; [reflexivity|]. split; [assumption|]. right. reflexivity.
Qed.
Lemma degenerate_mult m P n : pok P -> fv (px P) = f0 -> fv (py P) = f0 -> fv (pz P) <> f0 ->
  exists R, mult_scalar m P n = Ok R /\ pok R /\ degenerate P R.
Proof.
  intros HP PX PY PZ. unfold mult_scalar. generalize scalar_ijs. intros l.
  assert (D : degenerate P INFTY) by (left; apply fv_ZERO). revert D. generalize INFTY_pok. generalize INFTY.
  induction l as [|ij l IH]; intros R HR D; cbn [scalar_loop]; [exists R; auto|].
  destruct (degenerate_step m P n R ij HP HR PX PY PZ D) as (R1 & E & H1 & D1). bstep E. apply IH; assumption.
Qed.

Lemma f0_nz : f1 <> f0. Proof. intros E. apply (f_equal fval) in E. discriminate E. Qed.
Lemma Aff_inj x y x' y' : Aff x y = Aff x' y' -> x = x' /\ y = y'.
Proof. unfold Aff. intros E. inversion E. auto. Qed.
Lemma red_eq a b : reduced a -> reduced b -> fv a = fv b -> a = b.
Proof. intros Ha Hb E. apply int256_inj; [apply Ha|apply Hb|]. apply fv_inj; assumption. Qed.
Lemma normalize_eq m P Q N : pok P -> pok Q -> jac P = jac Q -> normalize m P = Ok N -> normalize m Q = Ok N.
Proof.
  intros HP HQ J E. destruct (normalize_spec m P HP) as (N1 & E1 & Rx1 & Ry1 & J1). rewrite E in E1. apply Ok_inj in E1. subst N1.
  destruct (normalize_spec m Q HQ) as (N2 & E2 & Rx2 & Ry2 & J2). rewrite E2. f_equal.
  assert (X : fv (nx N2) = fv (nx N) /\ fv (ny N2) = fv (ny N)).
  { destruct J1 as [J1|(J1 & X1 & Y1)], J2 as [J2|(J2 & X2 & Y2)].
    - rewrite J1, J2 in J. apply Aff_inj in J as [A B0]. auto.
    - rewrite J1, J2 in J. discriminate J.
    - rewrite J1, J2 in J. discriminate J.
    - rewrite X1, Y1, X2, Y2. auto. }
  destruct X as [X Y]. apply red_eq in X; try assumption. apply red_eq in Y; try assumption.
  destruct N as [a1 b1], N2 as [a2 b2]; cbn [nx ny] in *. congruence.
Qed.
Lemma eff_lt_n v : eff_scalar v < n256.
Proof. eapply Z.lt_trans; [apply eff_scalar_range|reflexivity]. Qed.
(** the public value of [a]: on the curve unless the effective scalar is zero *)
Lemma dh_public_spec m a : int256_ok a ->
  exists A, dh_public m a = Ok A /\ reduced (nx A) /\ reduced (ny A) /\
   (eff_scalar a <> 0 -> Aff (fv (nx A)) (fv (ny A)) = nmul (Z.to_nat (eff_scalar a)) Gpt) /\
   (eff_scalar a = 0 -> nx A = ZERO /\ ny A = ZERO).
Proof.
  intros Ha. unfold dh_public. destruct (mult_scalar_spec m G a G_pok ltac:(rewrite G_jac; apply on_G) Ha) as (R & E & HR & J). bstep E.
  destruct (normalize_spec m R HR) as (A & E & Rx & Ry & JA). exists A. rewrite G_jac in J. rewrite J in JA.
  split; [exact E|]. split; [assumption|]. split; [assumption|]. pose proof (eff_scalar_range a). split; intros H0.
  - destruct JA as [JA|(JA & _)]; [symmetry; exact JA|]. exfalso. revert JA. apply order_exact. pose proof (eff_lt_n a). lia.
  - rewrite H0 in JA. destruct JA as [JA|(_ & X & Y)]; [discriminate JA|].
    rewrite <- fv_ZERO in X, Y. split; apply red_eq; try assumption; apply ZERO_red.
Qed.
Theorem dh_agree m a b : int256_ok a -> int256_ok b ->
  exists A C S, dh_public m a = Ok A /\ dh_public m b = Ok C /\ dh_shared m C a = Ok S /\ dh_shared m A b = Ok S.
Proof.
  intros Ha Hb. destruct (dh_public_spec m a Ha) as (A & EA & RxA & RyA & NA & ZA).
  destruct (dh_public_spec m b Hb) as (C & EC & RxC & RyC & NC & ZC). exists A, C.
  pose proof (to_point_pok A (proj1 RxA) (proj1 RyA)) as PA. pose proof (to_point_pok C (proj1 RxC) (proj1 RyC)) as PC.
  pose proof (to_point_jac A) as JA. pose proof (to_point_jac C) as JC.
  (* a shared point that is the degenerate zero *)
  assert (Dz : forall N s, reduced (nx N) -> reduced (ny N) -> nx N = ZERO -> ny N = ZERO -> dh_shared m N s = Ok (NPoint ZERO ZERO)).
  { intros N s Rx Ry X Y. unfold dh_shared.
    assert (F : fv (px (to_point N)) = f0 /\ fv (py (to_point N)) = f0 /\ fv (pz (to_point N)) <> f0).
    { unfold to_point. cbn [px py pz]. rewrite X, Y. split; [apply fv_ZERO|]. split; [apply fv_ZERO|]. rewrite fv_ONE. apply f0_nz. }
    destruct F as (F1 & F2 & F3). pose proof (to_point_pok N (proj1 Rx) (proj1 Ry)) as PN.
    destruct (degenerate_mult m (to_point N) s PN F1 F2 F3) as (R & E & HR & D). bstep E.
    destruct (normalize_spec m R HR) as (M & E & RxM & RyM & JM). rewrite E. f_equal.
    assert (Z0 : fv (nx M) = f0 /\ fv (ny M) = f0).
    { destruct JM as [JM|(_ & JM)]; [|exact JM]. destruct D as [D| ->].
      - unfold jac in JM. rewrite affine_0 in JM by assumption. discriminate JM.
      - rewrite to_point_jac, X, Y in JM. apply Aff_inj in JM as [M1 M2]. rewrite <- M1, <- M2. split; apply fv_ZERO. }
    destruct Z0 as [Z1 Z2]. rewrite <- fv_ZERO in Z1, Z2. apply red_eq in Z1; [|assumption|apply ZERO_red]. apply red_eq in Z2; [|assumption|apply ZERO_red].
    destruct M as [a1 b1]; cbn [nx ny] in *. congruence. }
  (* a zero effective scalar *)
  assert (Sz : forall N s, int256_ok s -> pok (to_point N) -> oncurve (jac (to_point N)) -> eff_scalar s = 0 -> dh_shared m N s = Ok (NPoint ZERO ZERO)).
  { intros N s Hs PN ON Z0. unfold dh_shared. destruct (mult_scalar_spec m (to_point N) s PN ON Hs) as (R & E & HR & J). bstep E.
    rewrite Z0 in J. destruct (normalize_spec m R HR) as (M & E & RxM & RyM & JM). rewrite E. f_equal. rewrite J in JM.
    destruct JM as [JM|(_ & Z1 & Z2)]; [discriminate JM|].
    rewrite <- fv_ZERO in Z1, Z2. apply red_eq in Z1; [|assumption|apply ZERO_red]. apply red_eq in Z2; [|assumption|apply ZERO_red].
    destruct M as [a1 b1]; cbn [nx ny] in *. congruence. }
  destruct (Z.eq_dec (eff_scalar a) 0) as [Ea|Na]; destruct (Z.eq_dec (eff_scalar b) 0) as [Eb|Nb].
  - destruct (ZA Ea), (ZC Eb). exists (NPoint ZERO ZERO). split; [assumption|]. split; [assumption|]. split; apply Dz; assumption.
  - destruct (ZA Ea). exists (NPoint ZERO ZERO). split; [assumption|]. split; [assumption|]. split; [|apply Dz; assumption].
    apply Sz; try assumption. rewrite JC, (NC Nb). apply on_nmul, on_G.
  - destruct (ZC Eb). exists (NPoint ZERO ZERO). split; [assumption|]. split; [assumption|]. split; [apply Dz; assumption|].
    apply Sz; try assumption. rewrite JA, (NA Na). apply on_nmul, on_G.
  - assert (OA : oncurve (jac (to_point A))) by (rewrite JA, (NA Na); apply on_nmul, on_G).
    assert (OC : oncurve (jac (to_point C))) by (rewrite JC, (NC Nb); apply on_nmul, on_G).
    destruct (mult_scalar_spec m (to_point C) a PC OC Ha) as (R1 & E1 & H1 & J1).
    destruct (mult_scalar_spec m (to_point A) b PA OA Hb) as (R2 & E2 & H2 & J2).
    destruct (normalize_spec m R1 H1) as (S1 & ES & _).
    exists S1. split; [assumption|]. split; [assumption|]. unfold dh_shared. bstep E1. bstep E2. split; [exact ES|].
    apply (normalize_eq m R1 R2); try assumption. rewrite J1, J2, JA, JC, (NA Na), (NC Nb). apply nmul_comm. apply on_G.
Qed.
