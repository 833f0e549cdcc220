(** Specification-side mathematics: the Jacobian doubling and addition formulas used by src/crypto/p256.rs agree with the
    affine law of EC_Abs.v over an abstract field when a = -3.  Nothing here models code of /repo. *)
From Coq Require Import ZArith Field.
From Verif Require Import EC_Abs.
Set Implicit Arguments.
Section J.
Variable F : Type.
Variables (zero one : F) (add mul sub : F -> F -> F) (opp : F -> F) (div : F -> F -> F) (inv : F -> F).
Hypothesis Fth : field_theory zero one add mul sub opp div inv (@eq F).
Hypothesis Fdec : forall x y : F, {x = y} + {x <> y}.
Add Field Ffield : Fth.
Notation "x + y" := (add x y). Notation "x * y" := (mul x y). Notation "x - y" := (sub x y). Notation "0" := zero. Notation "1":=one.
Notation "x / y" := (div x y). Notation "- x" := (opp x).
Hypothesis two_ne : 1+1 <> 0.
Variables a b : F.
Hypothesis a_eq : a = - (1+1+1).
Notation padd := (@padd F zero one add mul sub div Fdec a).
Notation on := (@on F add mul a b).

Lemma mul_ne x y : x <> 0 -> y <> 0 -> x * y <> 0.
Proof. intros A B E. apply (F_integral Fth Fdec) in E. tauto. Qed.
Lemma sub_ne x y : x <> y -> x - y <> 0.
Proof. intros N E. apply N. transitivity ((x - y) + y); [ring|]. rewrite E. ring. Qed.
Lemma sub_eq x y : x - y = 0 -> x = y.
Proof. intros E. transitivity ((x - y) + y); [ring|]. rewrite E. ring. Qed.
Lemma cancel x y c : c <> 0 -> x * c = y * c -> x = y.
Proof. intros N E. transitivity ((x * c) / c); [field; exact N|]. rewrite E. field. exact N. Qed.

Lemma mul_0_r x : x * 0 = 0. Proof. ring. Qed.
Lemma mul_comm x y : x * y = y * x. Proof. ring. Qed.
(** the affine point with Jacobian coordinates (x, y, z) *)
Definition aff (x y z : F) : pt F := if Fdec z 0 then @Inf F else Aff (x / (z*z)) (y / (z*z*z)).
Lemma aff_0 x y z : z = 0 -> aff x y z = @Inf F.
Proof. intros E. unfold aff. destruct (Fdec z 0); [reflexivity|contradiction]. Qed.
Lemma aff_n x y z : z <> 0 -> aff x y z = Aff (x / (z*z)) (y / (z*z*z)).
Proof. intros E. unfold aff. destruct (Fdec z 0); [contradiction|reflexivity]. Qed.

Lemma jac_double x y z A b4 b8 y8 xn yn zn : z <> 0 ->
  A = (x+z*z)*(x-z*z) + (x+z*z)*(x-z*z) + (x+z*z)*(x-z*z) ->
  b4 = (1+1)*(1+1)*(x*(y*y)) -> b8 = (1+1)*(1+1)*(1+1)*(x*(y*y)) -> y8 = (1+1)*(1+1)*(1+1)*((y*y)*(y*y)) ->
  xn = A*A - b8 -> yn = A*(b4 - xn) - y8 -> zn = (1+1)*(y*z) ->
  aff xn yn zn = padd (aff x y z) (aff x y z).
Proof.
  intros HZ HA H4 H8 Hy8 Hx Hy Hz. rewrite (aff_n x y HZ). cbn [EC_Abs.padd].
  destruct (Fdec (x / (z*z)) (x / (z*z))) as [_|N]; [|congruence].
  destruct (Fdec zn 0) as [E|N].
  - rewrite (aff_0 _ _ E).
    assert (Y0 : y = 0).
    { destruct (Fdec y 0) as [Y0|Y0]; [exact Y0|exfalso]. rewrite Hz in E. revert E. apply mul_ne; [exact two_ne|]. apply mul_ne; assumption. }
    match goal with |- context [Fdec ?s 0] => destruct (Fdec s 0) as [_|C] end; [reflexivity|].
    exfalso. apply C. rewrite Y0. field. exact HZ.
  - rewrite (aff_n _ _ N). assert (Y0 : y <> 0) by (intros Y0; apply N; rewrite Hz, Y0; ring).
    match goal with |- context [Fdec ?s 0] => destruct (Fdec s 0) as [C|_] end.
    + exfalso. assert (C' : (1+1)*y = 0).
      { transitivity ((y / (z*z*z) + y / (z*z*z)) * (z*z*z)); [field; exact HZ|]. rewrite C. ring. }
      revert C'. apply mul_ne; assumption.
    + unfold chord. cbv zeta. subst yn xn zn A b4 b8 y8. rewrite a_eq. f_equal; field; repeat split; assumption.
Qed.

Lemma jac_add x1 y1 z1 x2 y2 z2 X1 Y1 X2 Y2 xd yd e xn yn zn : z1 <> 0 -> z2 <> 0 ->
  X1 = x1*(z2*z2) -> Y1 = y1*(z2*z2*z2) -> X2 = x2*(z1*z1) -> Y2 = y2*(z1*z1*z1) ->
  xd = X1 - X2 -> yd = Y1 - Y2 -> e = (X1+X2)*(xd*xd) -> xn = yd*yd - e ->
  (1+1)*yn = yd*(e - (xn+xn)) - (Y1+Y2)*(xd*(xd*xd)) -> zn = z1*z2*xd -> xd <> 0 ->
  aff xn yn zn = padd (aff x1 y1 z1) (aff x2 y2 z2).
Proof.
  intros H1 H2 HX1 HY1 HX2 HY2 Hxd Hyd He Hxn Hyn Hzn N. rewrite (aff_n x1 y1 H1), (aff_n x2 y2 H2).
  assert (ZN : zn <> 0) by (rewrite Hzn; apply mul_ne; [apply mul_ne; assumption|exact N]). rewrite (aff_n _ _ ZN).
  assert (Yn : yn = (yd*(e - (xn+xn)) - (Y1+Y2)*(xd*(xd*xd))) / (1+1)).
  { rewrite <- Hyn. field. exact two_ne. }
  assert (ND : x2 * (z1*z1) - x1 * (z2*z2) <> 0).
  { intros E. apply N. rewrite Hxd, HX1, HX2. transitivity (- (x2 * (z1*z1) - x1 * (z2*z2))); [ring|]. rewrite E. ring. }
  assert (ND' : x1 * (z2*z2) - x2 * (z1*z1) <> 0) by (rewrite <- HX1, <- HX2, <- Hxd; exact N).
  cbn [EC_Abs.padd]. match goal with |- context [Fdec ?s ?t] => destruct (Fdec s t) as [C|_] end.
  - exfalso. apply ND. transitivity ((x2 / (z2*z2) - x1 / (z1*z1)) * ((z1*z1)*(z2*z2))); [field; split; assumption|]. rewrite C. ring.
  - unfold chord. cbv zeta. clear Hyn. subst yn zn xn e yd xd X1 X2 Y1 Y2. f_equal; field; repeat split; assumption.
Qed.
Lemma jac_same_x x1 z1 x2 z2 : z1 <> 0 -> z2 <> 0 -> x1*(z2*z2) - x2*(z1*z1) = 0 -> x1/(z1*z1) = x2/(z2*z2).
Proof.
  intros H1 H2 E. apply sub_eq in E. transitivity (x1*(z2*z2) / ((z1*z1)*(z2*z2))); [field; split; assumption|].
  rewrite E. field. split; assumption.
Qed.
Lemma jac_same_y y1 z1 y2 z2 : z1 <> 0 -> z2 <> 0 -> (y1*(z2*z2*z2) - y2*(z1*z1*z1) = 0 <-> y1/(z1*z1*z1) = y2/(z2*z2*z2)).
Proof.
  intros H1 H2. split; intros E.
  - apply sub_eq in E. transitivity (y1*(z2*z2*z2) / ((z1*z1*z1)*(z2*z2*z2))); [field; split; assumption|].
    rewrite E. field. split; assumption.
  - transitivity ((y1/(z1*z1*z1) - y2/(z2*z2*z2)) * ((z1*z1*z1)*(z2*z2*z2))); [field; split; assumption|]. rewrite E. ring.
Qed.
(** equal x, different y on the curve: opposite points *)
Lemma opposite x y y' : on (Aff x y) -> on (Aff x y') -> y <> y' -> padd (Aff x y) (Aff x y') = @Inf F.
Proof.
  cbn [EC_Abs.on EC_Abs.padd]. intros H H' N. destruct (Fdec x x) as [_|C]; [|congruence].
  destruct (Fdec (y + y') 0) as [_|C]; [reflexivity|exfalso].
  apply (mul_ne (sub_ne N) C). transitivity (y*y - y'*y'); [ring|]. rewrite H, H'. ring.
Qed.

(** the same, in the shape of the code *)
Lemma code_double x y z z2 y2 xm xp mu a2 A b1 b2 b4 b8 aa xn y4 y42 y44 y48 t t' yn s ss u zn : z <> 0 ->
  z2 = z*z -> y2 = y*y -> xm = x - z2 -> xp = x + z2 -> mu = xp*xm -> a2 = mu + mu -> A = a2 + mu -> b1 = x*y2 -> b2 = b1 + b1 ->
  b4 = b2 + b2 -> b8 = b4 + b4 -> aa = A*A -> xn = aa - b8 -> y4 = y2*y2 -> y42 = y4 + y4 -> y44 = y42 + y42 -> y48 = y44 + y44 ->
  t = b4 - xn -> t' = A*t -> yn = t' - y48 -> s = y + z -> ss = s*s -> u = z2 + y2 -> zn = ss - u ->
  aff xn yn zn = padd (aff x y z) (aff x y z).
Proof.
  intros HZ Hz2 Hy2 Hxm Hxp Hmu Ha2 HA Hb1 Hb2 Hb4 Hb8 Haa Hxn Hy4 Hy42 Hy44 Hy48 Ht Ht' Hyn Hs Hss Hu Hzn.
  apply (@jac_double x y z A b4 b8 y48); try assumption; subst; ring.
Qed.
Lemma code_add x1 y1 z1 x2 y2 z2 q2 q3 r2 r3 X1 Y1 X2 Y2 xd xd2 xd3 yd yd2 xs ys e xn xn2 t4 t5 t5' t yn zz zn : z1 <> 0 -> z2 <> 0 ->
  q2 = z1*z1 -> q3 = z1*q2 -> r2 = z2*z2 -> r3 = z2*r2 -> X1 = x1*r2 -> Y1 = y1*r3 -> X2 = x2*q2 -> Y2 = y2*q3 ->
  xd = X1 - X2 -> xd2 = xd*xd -> xd3 = xd*xd2 -> yd = Y1 - Y2 -> yd2 = yd*yd -> xs = X1 + X2 -> ys = Y1 + Y2 -> e = xs*xd2 ->
  xn = yd2 - e -> xn2 = xn + xn -> t4 = ys*xd3 -> t5 = e - xn2 -> t5' = yd*t5 -> t = t5' - t4 -> (1+1)*yn = t -> zz = z1*z2 -> zn = zz*xd ->
  on (aff x1 y1 z1) -> on (aff x2 y2 z2) ->
  (xd <> 0 -> aff xn yn zn = padd (aff x1 y1 z1) (aff x2 y2 z2)) /\
  (xd = 0 -> yd <> 0 -> padd (aff x1 y1 z1) (aff x2 y2 z2) = @Inf F) /\
  (xd = 0 -> yd = 0 -> aff x1 y1 z1 = aff x2 y2 z2).
Proof.
  intros H1 H2 Hq2 Hq3 Hr2 Hr3 HX1 HY1 HX2 HY2 Hxd Hxd2 Hxd3 Hyd Hyd2 Hxs Hys He Hxn Hxn2 Ht4 Ht5 Ht5' Ht Hyn Hzz Hzn O1 O2.
  split; [|split].
  - intros N. apply (@jac_add x1 y1 z1 x2 y2 z2 X1 Y1 X2 Y2 xd yd e xn yn zn); try assumption; try (rewrite Hyn); try (subst; ring).
  - intros E N. rewrite (aff_n x1 y1 H1), (aff_n x2 y2 H2) in *.
    assert (EX : x1/(z1*z1) = x2/(z2*z2)) by (apply jac_same_x; [assumption|assumption|]; transitivity xd; [clear - Fth Hxd HX1 HX2 Hr2 Hq2; subst; ring|exact E]).
    rewrite <- EX in *. apply opposite; try assumption. intros EY. apply (jac_same_y y1 y2 H1 H2) in EY. apply N.
    transitivity (y1*(z2*z2*z2) - y2*(z1*z1*z1)); [|exact EY]; clear - Fth Hyd HY1 HY2 Hr2 Hq2 Hr3 Hq3; subst; ring.
  - intros E E'. rewrite (aff_n x1 y1 H1), (aff_n x2 y2 H2).
    assert (EX : x1/(z1*z1) = x2/(z2*z2)) by (apply jac_same_x; [assumption|assumption|]; transitivity xd; [clear - Fth Hxd HX1 HX2 Hr2 Hq2; subst; ring|exact E]).
    assert (EY : y1/(z1*z1*z1) = y2/(z2*z2*z2)) by (apply (jac_same_y y1 y2 H1 H2); transitivity yd; [clear - Fth Hyd HY1 HY2 Hr2 Hq2 Hr3 Hq3; subst; ring|exact E']).
    rewrite EX, EY. reflexivity.
Qed.

(** one step with the slope given *)
Lemma slope_double x y l x' y' : y <> 0 -> l*((1+1)*y) = (1+1+1)*x*x + a -> x' = l*l - x - x -> y' = l*(x - x') - y ->
  padd (Aff x y) (Aff x y) = Aff x' y'.
Proof.
  intros Y L Hx Hy. cbn [EC_Abs.padd]. destruct (Fdec x x) as [_|C]; [|congruence].
  assert (Y2 : (1+1)*y <> 0) by (apply mul_ne; assumption).
  destruct (Fdec (y + y) 0) as [C|_]; [exfalso; apply Y2; transitivity (y + y); [ring|exact C]|].
  rewrite <- L. assert (E : l*((1+1)*y) / ((1+1)*y) = l) by (field; split; assumption). rewrite E. unfold chord. cbv zeta.
  subst x' y'. reflexivity.
Qed.
Lemma slope_add x1 y1 x2 y2 l x' y' : x1 <> x2 -> l*(x2 - x1) = y2 - y1 -> x' = l*l - x1 - x2 -> y' = l*(x1 - x') - y1 ->
  padd (Aff x1 y1) (Aff x2 y2) = Aff x' y'.
Proof.
  intros N L Hx Hy. cbn [EC_Abs.padd]. destruct (Fdec x1 x2) as [C|_]; [contradiction|].
  assert (D : x2 - x1 <> 0) by (apply sub_ne; congruence).
  rewrite <- L. assert (E : l*(x2 - x1) / (x2 - x1) = l) by (field; assumption). rewrite E. unfold chord. cbv zeta.
  subst x' y'. reflexivity.
Qed.
Lemma three_x x : (1+1+1)*(x*x) - (1+1+1) = (1+1+1)*x*x + a.
Proof. rewrite a_eq. ring. Qed.
Lemma div_1 x : x / (1*1) = x.
Proof. field. exact (F_1_neq_0 Fth). Qed.
Lemma div_1' x : x / (1*1*1) = x.
Proof. field. exact (F_1_neq_0 Fth). Qed.
Lemma curve_form x y : on (Aff x y) <-> y*y + ((x + x) + x) = x*x*x + b.
Proof.
  cbn [EC_Abs.on]. rewrite a_eq. split; intros E.
  - rewrite E. ring.
  - transitivity ((y*y + ((x + x) + x)) - ((x + x) + x)); [ring|]. rewrite E. ring.
Qed.
Lemma double_y0 x z : z <> 0 -> padd (Aff x (0 / (z*z*z))) (Aff x (0 / (z*z*z))) = @Inf F.
Proof.
  intros Hz. cbn [EC_Abs.padd]. destruct (Fdec x x) as [_|C]; [|congruence].
  match goal with |- context [Fdec ?s 0] => destruct (Fdec s 0) as [_|C] end; [reflexivity|]. exfalso. apply C. field. exact Hz.
Qed.
End J.
