(** The arithmetic of src/crypto/p256.rs on the curves y^2 = x^3 - 3x + c. *)
From Coq Require Import ZArith Znumtheory Lia List Bool Field.
From Coq Require Import ZifyBool ZifyNat ZifyN.
From Verif Require Import Base M_P256 Spec_P256 Spec_Point P_Limbs P_Mult P_P256conv NT_Prime NT_P256 P_Inverse P_Fp P_Points NT_Order P_Scalar Spec_Other P_Decode256.
From Verif Require EC_Abs EC_Jac.
Import ListNotations.
Open Scope Z_scope.
#[local] Opaque imult isquare iadd isub iinverse divide_by_2 icompare finv toF.

Lemma on_c_eq c P : on_c c P = @EC_Abs.on Fp fadd fmul cA c P. Proof. destruct P; reflexivity. Qed.
(** [ppadd] of P_Points.v with c in place of b *)
Lemma ppadd_c c m P Q : pok P -> pok Q ->
  exists R, ppadd m P Q = Ok R /\ pok R /\ (on_c c (jac P) -> on_c c (jac Q) -> jac R = eadd (jac P) (jac Q)) /\
    (fv (pz P) = f0 -> fv (pz Q) <> f0 -> R = Q).
Proof.
  intros HP HQ. destruct (pdouble_spec m P HP) as (D & ED & OD & JD & _).
  pose proof HP as (Hx1 & Hy1 & Rz1 & _). pose proof HQ as (Hx2 & Hy2 & Rz2 & _).
  pose proof (proj1 Rz1) as Hz1. pose proof (proj1 Rz2) as Hz2.
  unfold_eq ppadd. rewrite (icompare_F _ Rz1), (icompare_F _ Rz2). cbv zeta.
  destruct (isquare_F m _ Hz1) as (q2 & E & Rq2 & Fq2). bstep E.
  destruct (imult_F m _ q2 Hz1 (proj1 Rq2)) as (q3 & E & Rq3 & Fq3). bstep E.
  destruct (isquare_F m _ Hz2) as (r2 & E & Rr2 & Fr2). bstep E.
  destruct (imult_F m _ r2 Hz2 (proj1 Rr2)) as (r3 & E & Rr3 & Fr3). bstep E.
  destruct (imult_F m _ r2 Hx1 (proj1 Rr2)) as (X1 & E & RX1 & FX1). bstep E.
  destruct (imult_F m _ r3 Hy1 (proj1 Rr3)) as (Y1 & E & RY1 & FY1). bstep E.
  destruct (imult_F m _ q2 Hx2 (proj1 Rq2)) as (X2 & E & RX2 & FX2). bstep E.
  destruct (imult_F m _ q3 Hy2 (proj1 Rq3)) as (Y2 & E & RY2 & FY2). bstep E.
  destruct (isub_F m X1 X2 RX1 RX2) as (xd & E & Rxd & Fxd). bstep E.
  destruct (isquare_F m xd (proj1 Rxd)) as (xd2 & E & Rxd2 & Fxd2). bstep E.
  destruct (imult_F m xd xd2 (proj1 Rxd) (proj1 Rxd2)) as (xd3 & E & Rxd3 & Fxd3). bstep E.
  destruct (isub_F m Y1 Y2 RY1 RY2) as (yd & E & Ryd & Fyd). bstep E.
  destruct (isquare_F m yd (proj1 Ryd)) as (yd2 & E & Ryd2 & Fyd2). bstep E.
  destruct (iadd_F m X1 X2 RX1 RX2) as (xs & E & Rxs & Fxs). bstep E.
  destruct (iadd_F m Y1 Y2 RY1 RY2) as (ys & E & Rys & Fys). bstep E.
  destruct (imult_F m xs xd2 (proj1 Rxs) (proj1 Rxd2)) as (e & E & Re & Fe). bstep E.
  destruct (isub_F m yd2 e Ryd2 Re) as (xn & E & Rxn & Fxn). bstep E.
  destruct (iadd_F m xn xn Rxn Rxn) as (xn2 & E & Rxn2 & Fxn2). bstep E.
  destruct (imult_F m ys xd3 (proj1 Rys) (proj1 Rxd3)) as (t4 & E & Rt4 & Ft4). bstep E.
  destruct (isub_F m e xn2 Re Rxn2) as (t5 & E & Rt5 & Ft5). bstep E.
  destruct (imult_F m yd t5 (proj1 Ryd) (proj1 Rt5)) as (t5' & E & Rt5' & Ft5'). bstep E.
  destruct (isub_F m t5' t4 Rt5' Rt4) as (t & E & Rt & Ft). bstep E.
  destruct (half_F t Rt) as [Ryn Fyn]. set (yn := divide_by_2 t) in *.
  destruct (imult_F m _ _ Hz1 Hz2) as (zz & E & Rzz & Fzz). bstep E.
  destruct (imult_F m zz xd (proj1 Rzz) (proj1 Rxd)) as (zn & E & Rzn & Fzn). bstep E.
  bstep ED. rewrite (icompare_F xd Rxd), (icompare_F yd Ryd), wsub_flag.
  pose proof (pok_red xn yn zn Rxn Ryn Rzn) as OR.
  (* the flags *)
  destruct (feq_dec (fv (pz Q)) f0) as [Z2|Z2].
  { assert (JQ : jac Q = Inf) by (apply affine_0; exact Z2).
    eexists. split; [reflexivity|].
    assert (C : forall T, pchoose 0 P T = P) by (intros; apply pchoose_0; assumption). rewrite C.
    split; [assumption|]. split; [intros _ _; rewrite JQ, eadd_inf_r; reflexivity|]. intros _ C0. contradiction. }
  assert (OK1 : forall f A B0, f = 0 \/ f = 1 -> pok A -> pok B0 -> pok (pchoose f A B0) /\ pchoose f A B0 = if f =? 0 then A else B0).
  { intros f A B0 [->| ->] HA HB; [rewrite pchoose_0 by assumption|rewrite pchoose_1 by assumption]; split; assumption || reflexivity. }
  set (ret1 := pchoose (Z.lor (if feq_dec (fv xd) f0 then 0 else 1) (if feq_dec (fv yd) f0 then 0 else 1)) D (Point xn yn zn)).
  set (ret2 := pchoose (Z.lor (if feq_dec (fv xd) f0 then 0 else 1) (if feq_dec (fv yd) f0 then 1 else 0)) INFTY ret1).
  assert (H1 : pok ret1 /\ ret1 = if feq_dec (fv xd) f0 then (if feq_dec (fv yd) f0 then D else Point xn yn zn) else Point xn yn zn).
  { unfold ret1. rewrite lor_flag. destruct (feq_dec (fv xd) f0), (feq_dec (fv yd) f0); apply OK1; try assumption; auto. }
  destruct H1 as [OR1 ER1].
  assert (H2 : pok ret2 /\ ret2 = if feq_dec (fv xd) f0 then (if feq_dec (fv yd) f0 then D else INFTY) else Point xn yn zn).
  { unfold ret2. rewrite lor_flag'. clearbody ret1. clear ret2.
    destruct (OK1 0 INFTY ret1 ltac:(auto) INFTY_pok OR1) as [K0 L0]. destruct (OK1 1 INFTY ret1 ltac:(auto) INFTY_pok OR1) as [K1 L1].
    destruct (feq_dec (fv xd) f0); [destruct (feq_dec (fv yd) f0)|]; (split; [assumption|]).
    - rewrite L1. exact ER1.
    - exact L0.
    - rewrite L1. exact ER1. }
  destruct H2 as [OR2 ER2]. clearbody ret2. clear ret1 OR1 ER1.
  destruct (feq_dec (fv (pz P)) f0) as [Z1|Z1].
  { assert (JP : jac P = Inf) by (apply affine_0; exact Z1). eexists. split; [reflexivity|].
    assert (C : pchoose 0 Q ret2 = Q) by (apply pchoose_0; assumption). rewrite C, pchoose_1 by assumption.
    split; [assumption|]. split; [intros _ _; rewrite JP, eadd_inf_l; reflexivity|]. reflexivity. }
  eexists. split; [reflexivity|].
  assert (C : pchoose 1 Q ret2 = ret2) by (apply pchoose_1; assumption). rewrite C, pchoose_1 by assumption.
  split; [assumption|]. split; [|intros C0; contradiction]. intros OP OQ. rewrite ER2.
  destruct (EC_Jac.code_add Fth feq_dec two_ne c cA_eq (fv (px P)) (fv (py P)) (fv (px Q)) (fv (py Q)) (fv yn) Z1 Z2 Fq2 Fq3 Fr2 Fr3 FX1 FY1 FX2 FY2 Fxd Fxd2 Fxd3
    Fyd Fyd2 Fxs Fys Fe Fxn Fxn2 Ft4 Ft5 Ft5' Ft Fyn Fzz Fzn OP OQ) as (A1 & A2 & A3).
  destruct (feq_dec (fv xd) f0) as [X0|X0]; [destruct (feq_dec (fv yd) f0) as [Y0|Y0]|].
  - rewrite JD. specialize (A3 X0 Y0). change (jac P = jac Q) in A3. rewrite <- A3. reflexivity.
  - rewrite INFTY_jac. symmetry. exact (A2 X0 Y0).
  - exact (A1 X0).
Qed.
(** ** the group of a smooth curve *)
#[local] Transparent toF.
Lemma smooth_disc c : smooth c ->
  fadd (fmul (fmul (fmul (fadd (fadd (fadd f1 f1) f1) f1) cA) cA) cA)
       (fmul (fmul (fmul (fmul (fadd (fadd f1 f1) f1) (fadd (fadd f1 f1) f1)) (fadd (fadd f1 f1) f1)) c) c) <> f0.
Proof.
  rewrite <- (toF_fval c). generalize (fval c) as z. intros z [N2 N2']. unfold f1, cA. rewrite <- ?toF_mul, <- ?toF_add, <- ?toF_mul, <- ?toF_add, <- ?toF_mul, <- ?toF_add.
  rewrite toF_0_iff. intros H. apply Z.mod_divide in H; [|discriminate].
  assert (D : (p256 | 27 * ((z - 2) * (z + 2)))) by (destruct H as [k H]; exists k; rewrite <- H; ring).
  apply prime_mult in D; [|exact prime_p256]. destruct D as [D|D].
  - apply Z.divide_pos_le in D; [|lia]. apply D. reflexivity.
  - apply prime_mult in D; [|exact prime_p256]. destruct D as [[k D]|[k D]].
    + apply N2. apply toF_eq. apply eqm_intro with k. lia.
    + apply N2'. apply toF_eq. apply eqm_intro with k. lia.
Qed.
#[local] Opaque toF.
Section C.
Variable c : Fp.
Hypothesis Sm : smooth c.
Lemma c_eadd P Q : on_c c P -> on_c c Q -> on_c c (eadd P Q).
Proof. rewrite !on_c_eq. exact (EC_Abs.on_padd Fth feq_dec cA c P Q). Qed.
Lemma c_comm P Q : on_c c P -> on_c c Q -> eadd P Q = eadd Q P.
Proof. rewrite !on_c_eq. exact (EC_Abs.padd_comm Fth feq_dec cA c P Q). Qed.
Lemma c_assoc P Q R : on_c c P -> on_c c Q -> on_c c R -> eadd (eadd P Q) R = eadd P (eadd Q R).
Proof. rewrite !on_c_eq. exact (EC_Abs.padd_assoc Fth feq_dec two_ne three_ne cA c (smooth_disc c Sm) P Q R). Qed.
Lemma c_neg P : on_c c P -> eadd P (eneg P) = Inf.
Proof. rewrite !on_c_eq. exact (EC_Abs.padd_neg Fth feq_dec cA c P). Qed.
Lemma c_eneg P : on_c c P -> on_c c (eneg P).
Proof. rewrite !on_c_eq. exact (EC_Abs.on_neg Fth feq_dec cA c P). Qed.
Lemma c_nmul n P : on_c c P -> on_c c (nmul n P).
Proof. intros H. induction n as [|n IH]; [exact I|]. apply c_eadd; assumption. Qed.
Lemma c_nmul_add m n P : on_c c P -> nmul (m + n) P = eadd (nmul m P) (nmul n P).
Proof.
  intros H. induction m as [|m IH]; [reflexivity|]. cbn [Nat.add nmul]. rewrite IH. symmetry.
  apply c_assoc; try assumption; apply c_nmul; assumption.
Qed.
#[local] Opaque pdouble ppadd pchoose.
Lemma step_c m P n R k ij : pok P -> on_c c (jac P) -> pok R -> 0 <= k -> jac R = nmul (Z.to_nat k) (jac P) ->
  exists R', scalar_step m P n R ij = Ok R' /\ pok R' /\ jac R' = nmul (Z.to_nat (2 * k + bit_of n ij)) (jac P).
Proof.
  intros HP OP HR Hk J. unfold scalar_step. destruct ij as [i j].
  destruct (pdouble_spec m R HR) as (R2 & E & H2 & J2 & _). bstep E.
  assert (J2' : jac R2 = nmul (Z.to_nat (2 * k)) (jac P)).
  { rewrite J2, J, <- c_nmul_add by assumption. f_equal. lia. }
  assert (O2 : on_c c (jac R2)) by (rewrite J2'; apply c_nmul; assumption).
  destruct (ppadd_c c m R2 P H2 HP) as (R3 & E & H3 & J3 & _). bstep E. specialize (J3 O2 OP).
  assert (J3' : jac R3 = nmul (Z.to_nat (2 * k + 1)) (jac P)).
  { rewrite J3, J2', nmul_S by lia. apply c_comm; [apply c_nmul|]; assumption. }
  change (Z.land (wshr (at_ n i) (Z.of_nat j)) 1) with (bit_of n (i, j)).
  destruct (bit_of_01 n (i, j)) as [-> | ->].
  - rewrite pchoose_0 by assumption. exists R2. rewrite Z.add_0_r. auto.
  - rewrite pchoose_1 by assumption. exists R3. auto.
Qed.
Lemma loop_c m P n l : pok P -> on_c c (jac P) -> forall R k, pok R -> 0 <= k -> jac R = nmul (Z.to_nat k) (jac P) ->
  exists R', scalar_loop m P n l R = Ok R' /\ pok R' /\ jac R' = nmul (Z.to_nat (bits n l k)) (jac P).
Proof.
  intros HP OP. induction l as [|ij l IH]; intros R k HR Hk J.
  - exists R. auto.
  - cbn [scalar_loop]. destruct (step_c m P n R k ij HP OP HR Hk J) as (R1 & E & H1 & J1). bstep E.
    apply IH; try assumption. destruct (bit_of_01 n ij); lia.
Qed.
Lemma mult_c m P n : pok P -> on_c c (jac P) -> int256_ok n ->
  exists R, mult_scalar m P n = Ok R /\ pok R /\ jac R = nmul (Z.to_nat (eff_scalar n)) (jac P) /\ on_c c (jac R).
Proof.
  intros HP OP Hn. rewrite <- bits_eff by assumption. unfold mult_scalar.
  destruct (loop_c m P n scalar_ijs HP OP INFTY 0 INFTY_pok ltac:(lia) INFTY_jac) as (R & E & H & J).
  exists R. split; [exact E|]. split; [exact H|]. split; [exact J|]. rewrite J. apply c_nmul. exact OP.
Qed.
Lemma shared_c m N n : int256_ok (nx N) -> int256_ok (ny N) -> on_c c (Aff (fv (nx N)) (fv (ny N))) -> int256_ok n ->
  exists S, dh_shared m N n = Ok S /\ reduced (nx S) /\ to_bytes (nx S) = secret_of (nmul (Z.to_nat (eff_scalar n)) (Aff (fv (nx N)) (fv (ny N)))).
Proof.
  intros Ox Oy On Hn. unfold dh_shared. rewrite <- to_point_jac in On.
  destruct (mult_c m (to_point N) n (to_point_pok N Ox Oy) On Hn) as (R & E & H & J & _). bstep E.
  destruct (normalize_spec m R H) as (S0 & E & Rx & Ry & K). exists S0. split; [exact E|]. split; [exact Rx|].
  rewrite to_point_jac in J. rewrite <- J, to_bytes_spec by apply Rx. pose proof (limbs_val_range _ (proj1 Rx)) as B.
  destruct K as [-> |(-> & K & _)].
  - cbn. unfold fv. rewrite fval_toF, Z.mod_small by (destruct Rx; lia). reflexivity.
  - apply (red_val0 _ Rx) in K. rewrite K. reflexivity.
Qed.
End C.
