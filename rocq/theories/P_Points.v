(** The Jacobian formulas of src/crypto/p256.rs against the affine group law. *)
From Coq Require Import ZArith Znumtheory Lia List Bool Field.
From Coq Require Import ZifyBool ZifyNat ZifyN.
From Verif Require Import Base M_P256 Spec_P256 Spec_Point P_Limbs P_Mult P_P256conv NT_Prime NT_P256 P_Inverse P_Fp.
From Verif Require EC_Abs EC_Jac.
Import ListNotations.
Open Scope Z_scope.
#[local] Opaque imult isquare iadd isub iinverse divide_by_2 icompare finv toF.

(** ** Field operations on representations *)
Lemma imult_F m a b : int256_ok a -> int256_ok b -> exists v, imult m a b = Ok v /\ reduced v /\ fv v = fmul (fv a) (fv b).
Proof.
  intros Ha Hb. destruct (imult_spec m a b Ha Hb) as (v & E & R & V). exists v. repeat split; try apply R; try exact E.
  unfold fv. rewrite V, toF_mod. apply toF_mul.
Qed.
Lemma isquare_F m a : int256_ok a -> exists v, isquare m a = Ok v /\ reduced v /\ fv v = fmul (fv a) (fv a).
Proof.
  intros Ha. destruct (isquare_spec m a Ha) as (v & E & R & V). exists v. repeat split; try apply R; try exact E.
  unfold fv. rewrite V, toF_mod. apply toF_mul.
Qed.
Lemma iadd_Fgen m a b : int256_ok a -> int256_ok b -> limbs_val a + limbs_val b < 2 * p256 ->
  exists v, iadd m a b = Ok v /\ reduced v /\ fv v = fadd (fv a) (fv b).
Proof.
  intros Ha Hb Hs. destruct (iadd_gen m a b Ha Hb Hs) as (v & E & R & V). exists v. repeat split; try apply R; try exact E.
  unfold fv. rewrite V, toF_mod. apply toF_add.
Qed.
Lemma iadd_F m a b : reduced a -> reduced b -> exists v, iadd m a b = Ok v /\ reduced v /\ fv v = fadd (fv a) (fv b).
Proof. intros [Ha Ra] [Hb Rb]. apply iadd_Fgen; try assumption. lia. Qed.
Lemma isub_F m a b : reduced a -> reduced b -> exists v, isub m a b = Ok v /\ reduced v /\ fv v = fsub (fv a) (fv b).
Proof.
  intros Ha Hb. destruct (isub_spec m a b Ha Hb) as (v & E & R & V). exists v. repeat split; try apply R; try exact E.
  unfold fv. rewrite V, toF_mod. apply toF_sub.
Qed.
Lemma add_p_mod x p : (x + p) mod p = x mod p.
Proof. rewrite <- (Z_mod_plus_full x 1 p), Z.mul_1_l. reflexivity. Qed.
(** any 256-bit minuend *)
Lemma isub_Fgen m a b : int256_ok a -> reduced b -> exists v, isub m a b = Ok v /\ int256_ok v /\ fv v = fsub (fv a) (fv b).
Proof.
  intros Ha [Hb Rb]. pose proof (limbs_val_range a Ha). 
  destruct (isub_gen m a b Ha Hb ltac:(lia)) as (v & E & R & V). exists v. repeat split; try apply R; try exact E.
  unfold fv. rewrite V, <- toF_sub. destruct (limbs_val b <=? limbs_val a); [reflexivity|].
  apply toF_eq. apply add_p_mod.
Qed.
Lemma half_F a : reduced a -> reduced (divide_by_2 a) /\ fmul (fadd f1 f1) (fv (divide_by_2 a)) = fv a.
Proof.
  intros Ha. destruct (divide_by_2_spec a Ha) as [R V]. split; [exact R|]. unfold fv.
  replace (fadd f1 f1) with (toF 2) by (apply feq; reflexivity). rewrite <- toF_mul, <- V, toF_mod. reflexivity.
Qed.
Lemma red_val0 a : reduced a -> (limbs_val a = 0 <-> fv a = f0).
Proof.
  intros [Ha Ra]. pose proof (limbs_val_range a Ha). unfold fv. rewrite toF_0_iff. rewrite Z.mod_small by lia. reflexivity.
Qed.
Lemma icompare_F a : reduced a -> icompare a ZERO = if feq_dec (fv a) f0 then 0 else 1.
Proof.
  intros Ha. rewrite icompare_spec by (apply Ha || apply ZERO_ok). change (limbs_val ZERO) with 0.
  pose proof (red_val0 a Ha) as Q. destruct (feq_dec (fv a) f0) as [E|N]; destruct (Z.eqb_spec (limbs_val a) 0) as [E'|N']; try reflexivity; tauto.
Qed.
Lemma iinverse_F m a : reduced a -> exists v, iinverse m a = Ok v /\ reduced v /\ fv v = finv (fv a).
Proof.
  intros Ha. destruct (iinverse_pow m a Ha) as (v & E & R & V). exists v. repeat split; try apply R; try exact E.
  unfold fv. rewrite finv_spec, fval_toF, V, toF_mod. rewrite (Z.mod_small (limbs_val a)); [reflexivity|].
  destruct Ha as [Ha Ra]. pose proof (limbs_val_range a Ha). lia.
Qed.

(** ** Points *)
Lemma pok_red x y z : reduced x -> reduced y -> reduced z -> pok (Point x y z).
Proof. intros Hx Hy Hz. split; [apply Hx|]. split; [apply Hy|]. split; [exact Hz|]. left. split; assumption. Qed.
Lemma INFTY_pok : pok INFTY. Proof. apply pok_red; apply ONE_red || apply ZERO_red. Qed.
Lemma fv_ZERO : fv ZERO = f0. Proof. reflexivity. Qed.
Lemma fv_ONE : fv ONE = f1. Proof. reflexivity. Qed.
Lemma INFTY_jac : jac INFTY = Inf.
Proof. unfold jac, affine. cbn [pz INFTY]. rewrite fv_ZERO. destruct (feq_dec f0 f0); [reflexivity|congruence]. Qed.
Lemma pchoose_0 P Q : pok P -> pchoose 0 P Q = P.
Proof. intros (A & B0 & C & _). unfold pchoose. rewrite !ichoose_0 by (assumption || apply C). destruct P; reflexivity. Qed.
Lemma pchoose_1 P Q : pok P -> pok Q -> pchoose 1 P Q = Q.
Proof.
  intros (A & B0 & C & _) (A' & B' & C' & _). unfold pchoose. rewrite !ichoose_1 by (assumption || apply C || apply C').
  destruct Q; reflexivity.
Qed.

Ltac fstep L := let v := fresh "v" in let E := fresh "E" in let R := fresh "R" in let V := fresh "V" in
  destruct L as (v & E & R & V); bstep E.
Ltac fred := solve [assumption | match goal with H : reduced ?x |- int256_ok ?x => exact (proj1 H) end].

Lemma affine_0 x y z : z = f0 -> affine x y z = Inf.
Proof. intros E. unfold affine. destruct (feq_dec z f0); [reflexivity|contradiction]. Qed.
Lemma affine_n x y z : z <> f0 -> affine x y z = Aff (fdiv x (fmul z z)) (fdiv y (fmul (fmul z z) z)).
Proof. intros E. unfold affine. destruct (feq_dec z f0); [contradiction|reflexivity]. Qed.

Lemma twop_gt : 2 ^ 256 + 1 < 2 * p256. Proof. reflexivity. Qed.
(** ** doubling *)
Lemma pdouble_spec m P : pok P -> exists R, pdouble m P = Ok R /\ pok R /\ jac R = eadd (jac P) (jac P) /\
  reduced (px R) /\ reduced (py R).
Proof.
  intros (Hx & Hy & Hz & HO). destruct P as [x y z]. cbn [px py pz] in *.
  unfold_eq pdouble. cbn [px py pz]. pose proof (proj1 Hz) as Hz'.
  destruct (isquare_spec m z Hz') as (z2 & E & Rz2 & Vz2). bstep E.
  assert (Fz2 : fv z2 = fmul (fv z) (fv z)) by (unfold fv; rewrite Vz2, toF_mod; apply toF_mul).
  assert (Sx : limbs_val x + limbs_val z2 < 2 * p256).
  { pose proof (limbs_val_range x Hx). pose proof twop_gt. destruct HO as [[Rx _]|Ez].
    - destruct Rx, Rz2. lia.
    - rewrite Ez in Vz2. change (limbs_val z2 = 1) in Vz2. lia. }
  assert (Sy : limbs_val y + limbs_val z < 2 * p256).
  { pose proof (limbs_val_range y Hy). pose proof twop_gt. destruct HO as [[_ Ry]|Ez].
    - destruct Ry, Hz. lia.
    - rewrite Ez. change (limbs_val ONE) with 1. lia. }
  destruct (isquare_F m y Hy) as (y2 & E & Ry2 & Fy2). bstep E.
  destruct (isub_Fgen m x z2 Hx Rz2) as (xm & E & Oxm & Fxm). bstep E.
  destruct (iadd_Fgen m x z2 Hx (proj1 Rz2) Sx) as (xp & E & Rxp & Fxp). bstep E.
  destruct (imult_F m xp xm (proj1 Rxp) Oxm) as (mu & E & Rmu & Fmu). bstep E.
  destruct (iadd_F m mu mu Rmu Rmu) as (a2 & E & Ra2 & Fa2). bstep E.
  destruct (iadd_F m a2 mu Ra2 Rmu) as (a & E & Ra & Fa). bstep E.
  destruct (imult_F m x y2 Hx (proj1 Ry2)) as (b & E & Rb & Fb). bstep E.
  destruct (iadd_F m b b Rb Rb) as (b2 & E & Rb2 & Fb2). bstep E.
  destruct (iadd_F m b2 b2 Rb2 Rb2) as (b4 & E & Rb4 & Fb4). bstep E.
  destruct (iadd_F m b4 b4 Rb4 Rb4) as (b8 & E & Rb8 & Fb8). bstep E.
  destruct (isquare_F m a (proj1 Ra)) as (aa & E & Raa & Faa). bstep E.
  destruct (isub_F m aa b8 Raa Rb8) as (xn & E & Rxn & Fxn). bstep E.
  destruct (isquare_F m y2 (proj1 Ry2)) as (y4 & E & Ry4 & Fy4). bstep E.
  destruct (iadd_F m y4 y4 Ry4 Ry4) as (y42 & E & Ry42 & Fy42). bstep E.
  destruct (iadd_F m y42 y42 Ry42 Ry42) as (y44 & E & Ry44 & Fy44). bstep E.
  destruct (iadd_F m y44 y44 Ry44 Ry44) as (y48 & E & Ry48 & Fy48). bstep E.
  destruct (isub_F m b4 xn Rb4 Rxn) as (t & E & Rt & Ft). bstep E.
  destruct (imult_F m a t (proj1 Ra) (proj1 Rt)) as (t' & E & Rt' & Ft'). bstep E.
  destruct (isub_F m t' y48 Rt' Ry48) as (yn & E & Ryn & Fyn). bstep E.
  destruct (iadd_Fgen m y z Hy Hz' Sy) as (s & E & Rs & Fs). bstep E.
  destruct (isquare_F m s (proj1 Rs)) as (ss & E & Rss & Fss). bstep E.
  destruct (iadd_F m z2 y2 Rz2 Ry2) as (u & E & Ru & Fu). bstep E.
  destruct (isub_F m ss u Rss Ru) as (zn & E & Rzn & Fzn). bstep E.
  cbv zeta. rewrite (icompare_F z Hz). pose proof (pok_red xn yn zn Rxn Ryn Rzn) as OR.
  destruct (feq_dec (fv z) f0) as [Z0|Z0].
  - rewrite pchoose_0 by apply INFTY_pok. exists INFTY. split; [reflexivity|]. split; [apply INFTY_pok|]. split.
    + rewrite INFTY_jac. unfold jac. cbn [px py pz]. rewrite affine_0 by assumption. reflexivity.
    + split; apply ONE_red.
  - rewrite pchoose_1 by (apply INFTY_pok || assumption). exists (Point xn yn zn). split; [reflexivity|]. split; [assumption|]. split.
    + unfold jac. cbn [px py pz].
      exact (EC_Jac.code_double Fth feq_dec two_ne cA_eq (fv x) (fv y) Z0 Fz2 Fy2 Fxm Fxp Fmu Fa2 Fa Fb Fb2 Fb4 Fb8 Faa Fxn Fy4 Fy42 Fy44 Fy48 Ft Ft' Fyn Fs Fss Fu Fzn).
    + split; assumption.
Qed.

(** ** addition *)
Lemma lor_flag (A B0 : Prop) (a : {A} + {~ A}) (b : {B0} + {~ B0}) :
  Z.lor (if a then 0 else 1) (if b then 0 else 1) = if a then (if b then 0 else 1) else 1.
Proof. destruct a, b; reflexivity. Qed.
Lemma lor_flag' (A B0 : Prop) (a : {A} + {~ A}) (b : {B0} + {~ B0}) :
  Z.lor (if a then 0 else 1) (if b then 1 else 0) = if a then (if b then 1 else 0) else 1.
Proof. destruct a, b; reflexivity. Qed.
Lemma wsub_flag (B0 : Prop) (b : {B0} + {~ B0}) : wsub 1 (if b then 0 else 1) = if b then 1 else 0.
Proof. destruct b; reflexivity. Qed.
Lemma ppadd_gen m P Q : pok P -> pok Q ->
  exists R, ppadd m P Q = Ok R /\ pok R /\ (oncurve (jac P) -> oncurve (jac Q) -> jac R = eadd (jac P) (jac Q)) /\
    (fv (pz P) = f0 -> fv (pz Q) <> f0 -> R = Q).
Proof.
  intros HP HQ. destruct (pdouble_spec m P HP) as (D & ED & OD & JD & _).
  pose proof HP as (Hx1 & Hy1 & Rz1 & _). pose proof HQ as (Hx2 & Hy2 & Rz2 & _).
  pose proof (proj1 Rz1) as Hz1. pose proof (proj1 Rz2) as Hz2.
  unfold_eq ppadd. rewrite (icompare_F _ Rz1), (icompare_F _ Rz2). cbv zeta.
  destruct (isquare_F m _ Hz1) as (q2 & E & Rq2 & Fq2). bstep E.
  destruct (imult_F m _ q2 Hz1 (proj1 Rq2)) as (q3 & E & Rq3 & Fq3). bstep E.
  destruct (isquare_F m _ Hz2) as (r2 & E & Rr2 & Fr2). bstep E.
  destruct (imult_F m _ r2 Hz2 (proj1 Rr2)) as (r3 & E & Rr3 & Fr3). bstep E.
  destruct (imult_F m _ r2 Hx1 (proj1 Rr2)) as (X1 & E & RX1 & FX1). bstep E.
  destruct (imult_F m _ r3 Hy1 (proj1 Rr3)) as (Y1 & E & RY1 & FY1). bstep E.
  destruct (imult_F m _ q2 Hx2 (proj1 Rq2)) as (X2 & E & RX2 & FX2). bstep E.
  destruct (imult_F m _ q3 Hy2 (proj1 Rq3)) as (Y2 & E & RY2 & FY2). bstep E.
  destruct (isub_F m X1 X2 RX1 RX2) as (xd & E & Rxd & Fxd). bstep E.
  destruct (isquare_F m xd (proj1 Rxd)) as (xd2 & E & Rxd2 & Fxd2). bstep E.
  destruct (imult_F m xd xd2 (proj1 Rxd) (proj1 Rxd2)) as (xd3 & E & Rxd3 & Fxd3). bstep E.
  destruct (isub_F m Y1 Y2 RY1 RY2) as (yd & E & Ryd & Fyd). bstep E.
  destruct (isquare_F m yd (proj1 Ryd)) as (yd2 & E & Ryd2 & Fyd2). bstep E.
  destruct (iadd_F m X1 X2 RX1 RX2) as (xs & E & Rxs & Fxs). bstep E.
  destruct (iadd_F m Y1 Y2 RY1 RY2) as (ys & E & Rys & Fys). bstep E.
  destruct (imult_F m xs xd2 (proj1 Rxs) (proj1 Rxd2)) as (e & E & Re & Fe). bstep E.
  destruct (isub_F m yd2 e Ryd2 Re) as (xn & E & Rxn & Fxn). bstep E.
  destruct (iadd_F m xn xn Rxn Rxn) as (xn2 & E & Rxn2 & Fxn2). bstep E.
  destruct (imult_F m ys xd3 (proj1 Rys) (proj1 Rxd3)) as (t4 & E & Rt4 & Ft4). bstep E.
  destruct (isub_F m e xn2 Re Rxn2) as (t5 & E & Rt5 & Ft5). bstep E.
  destruct (imult_F m yd t5 (proj1 Ryd) (proj1 Rt5)) as (t5' & E & Rt5' & Ft5'). bstep E.
  destruct (isub_F m t5' t4 Rt5' Rt4) as (t & E & Rt & Ft). bstep E.
  destruct (half_F t Rt) as [Ryn Fyn]. set (yn := divide_by_2 t) in *.
  destruct (imult_F m _ _ Hz1 Hz2) as (zz & E & Rzz & Fzz). bstep E.
  destruct (imult_F m zz xd (proj1 Rzz) (proj1 Rxd)) as (zn & E & Rzn & Fzn). bstep E.
  bstep ED. rewrite (icompare_F xd Rxd), (icompare_F yd Ryd), wsub_flag.
  pose proof (pok_red xn yn zn Rxn Ryn Rzn) as OR.
  (* the flags *)
  destruct (feq_dec (fv (pz Q)) f0) as [Z2|Z2].
  { assert (JQ : jac Q = Inf) by (apply affine_0; exact Z2).
    eexists. split; [reflexivity|].
    assert (C : forall T, pchoose 0 P T = P) by (intros; apply pchoose_0; assumption). rewrite C.
    split; [assumption|]. split; [intros _ _; rewrite JQ, eadd_inf_r; reflexivity|]. intros _ C0. contradiction. }
  assert (OK1 : forall f A B0, f = 0 \/ f = 1 -> pok A -> pok B0 -> pok (pchoose f A B0) /\ pchoose f A B0 = if f =? 0 then A else B0).
  { intros f A B0 [->| ->] HA HB; [rewrite pchoose_0 by assumption|rewrite pchoose_1 by assumption]; split; assumption || reflexivity. }
  set (ret1 := pchoose (Z.lor (if feq_dec (fv xd) f0 then 0 else 1) (if feq_dec (fv yd) f0 then 0 else 1)) D (Point xn yn zn)).
  set (ret2 := pchoose (Z.lor (if feq_dec (fv xd) f0 then 0 else 1) (if feq_dec (fv yd) f0 then 1 else 0)) INFTY ret1).
  assert (H1 : pok ret1 /\ ret1 = if feq_dec (fv xd) f0 then (if feq_dec (fv yd) f0 then D else Point xn yn zn) else Point xn yn zn).
  { unfold ret1. rewrite lor_flag. destruct (feq_dec (fv xd) f0), (feq_dec (fv yd) f0); apply OK1; try assumption; auto. }
  destruct H1 as [OR1 ER1].
  assert (H2 : pok ret2 /\ ret2 = if feq_dec (fv xd) f0 then (if feq_dec (fv yd) f0 then D else INFTY) else Point xn yn zn).
  { unfold ret2. rewrite lor_flag'. clearbody ret1. clear ret2.
    destruct (OK1 0 INFTY ret1 ltac:(auto) INFTY_pok OR1) as [K0 L0]. destruct (OK1 1 INFTY ret1 ltac:(auto) INFTY_pok OR1) as [K1 L1].
    destruct (feq_dec (fv xd) f0); [destruct (feq_dec (fv yd) f0)|]; (split; [assumption|]).
    - rewrite L1. exact ER1.
    - exact L0.
    - rewrite L1. exact ER1. }
  destruct H2 as [OR2 ER2]. clearbody ret2. clear ret1 OR1 ER1.
  destruct (feq_dec (fv (pz P)) f0) as [Z1|Z1].
  { assert (JP : jac P = Inf) by (apply affine_0; exact Z1). eexists. split; [reflexivity|].
    assert (C : pchoose 0 Q ret2 = Q) by (apply pchoose_0; assumption). rewrite C, pchoose_1 by assumption.
    split; [assumption|]. split; [intros _ _; rewrite JP, eadd_inf_l; reflexivity|]. reflexivity. }
  eexists. split; [reflexivity|].
  assert (C : pchoose 1 Q ret2 = ret2) by (apply pchoose_1; assumption). rewrite C, pchoose_1 by assumption.
  split; [assumption|]. split; [|intros C0; contradiction]. intros OP OQ. rewrite ER2.
  destruct (EC_Jac.code_add Fth feq_dec two_ne cB cA_eq (fv (px P)) (fv (py P)) (fv (px Q)) (fv (py Q)) (fv yn) Z1 Z2 Fq2 Fq3 Fr2 Fr3 FX1 FY1 FX2 FY2 Fxd Fxd2 Fxd3
    Fyd Fyd2 Fxs Fys Fe Fxn Fxn2 Ft4 Ft5 Ft5' Ft Fyn Fzz Fzn OP OQ) as (A1 & A2 & A3).
  destruct (feq_dec (fv xd) f0) as [X0|X0]; [destruct (feq_dec (fv yd) f0) as [Y0|Y0]|].
  - rewrite JD. specialize (A3 X0 Y0). change (jac P = jac Q) in A3. rewrite <- A3. reflexivity.
  - rewrite INFTY_jac. symmetry. exact (A2 X0 Y0).
  - exact (A1 X0).
Qed.

Lemma ppadd_spec m P Q : pok P -> pok Q -> oncurve (jac P) -> oncurve (jac Q) ->
  exists R, ppadd m P Q = Ok R /\ pok R /\ jac R = eadd (jac P) (jac Q).
Proof. intros HP HQ OP OQ. destruct (ppadd_gen m P Q HP HQ) as (R & E & H & J & _). exists R. auto. Qed.

(** ** normalisation *)
Lemma normalize_spec m P : pok P -> exists N, normalize m P = Ok N /\ reduced (nx N) /\ reduced (ny N) /\
  (jac P = Aff (fv (nx N)) (fv (ny N)) \/ jac P = Inf /\ fv (nx N) = f0 /\ fv (ny N) = f0).
Proof.
  intros (Hx & Hy & Rz & _). pose proof (proj1 Rz) as Hz. unfold_eq normalize.
  destruct (isquare_F m _ Hz) as (z2 & E & Rz2 & Fz2). bstep E.
  destruct (imult_F m _ z2 Hz (proj1 Rz2)) as (z3 & E & Rz3 & Fz3). bstep E.
  destruct (iinverse_F m z2 Rz2) as (z2i & E & Rz2i & Fz2i). bstep E.
  destruct (imult_F m _ z2i Hx (proj1 Rz2i)) as (x & E & Rx & Fx). bstep E.
  destruct (iinverse_F m z3 Rz3) as (z3i & E & Rz3i & Fz3i). bstep E.
  destruct (imult_F m _ z3i Hy (proj1 Rz3i)) as (y & E & Ry & Fy). bstep E.
  exists (NPoint x y). split; [reflexivity|]. cbn [nx ny]. split; [assumption|]. split; [assumption|].
  destruct (feq_dec (fv (pz P)) f0) as [Z0|Z0].
  - right. split; [apply affine_0; exact Z0|].
    assert (I0 : finv f0 = f0) by (rewrite finv_spec; change (fval f0) with 0; rewrite Z.pow_0_l by reflexivity; reflexivity).
    assert (M0 : forall a, fmul a f0 = f0) by exact (EC_Jac.mul_0_r Fth).
    rewrite Z0, M0 in Fz2. rewrite Fz2, M0 in Fz3. rewrite Fz2, I0 in Fz2i. rewrite Fz3, I0 in Fz3i.
    rewrite Fz2i, M0 in Fx. rewrite Fz3i, M0 in Fy. split; assumption.
  - left. unfold jac. rewrite affine_n by assumption. rewrite Fx, Fy, Fz2i, Fz3i, Fz3, Fz2. unfold fdiv, Aff. f_equal. f_equal. f_equal. apply (EC_Jac.mul_comm Fth).
Qed.
