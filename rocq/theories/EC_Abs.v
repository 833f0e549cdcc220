(** Specification-side mathematics: the affine chord-and-tangent law of a short Weierstrass curve over an
    abstract field of characteristic other than 2 and 3, and its group properties (closure, commutativity,
    associativity, inverses).  Nothing here models code of /repo. *)
From Coq Require Import ZArith NsatzTactic Field Ncring Cring Integral_domain.
Set Implicit Arguments.
Section EC.
Variable F : Type.
Variables (zero one : F) (add mul sub : F -> F -> F) (opp : F -> F) (div : F -> F -> F) (inv : F -> F).
Hypothesis Fth : field_theory zero one add mul sub opp div inv (@eq F).
Hypothesis Fdec : forall x y : F, {x = y} + {x <> y}.
Add Field Ffield : Fth.
#[local] Instance F_ops : @Ring_ops F zero one add mul sub opp (@eq F) := {}.
#[local] Instance F_ring : Ring (Ro:=F_ops).
Proof.
  constructor; try typeclasses eauto; intros; cbv [eq_notation addition add_notation subtraction sub_notation multiplication mul_notation opposite opp_notation Algebra_syntax.zero zero_notation Algebra_syntax.one one_notation equality]; try ring.
Qed.
#[local] Instance F_cring : Cring (Rr:=F_ring).
Proof. intros x y. cbv [equality eq_notation multiplication mul_notation]. ring. Qed.
Lemma F_integral x y : mul x y = zero -> x = zero \/ y = zero.
Proof.
  intros H. destruct (Fdec x zero) as [E|E]; auto. right.
  transitivity (mul (inv x) (mul x y)); [field; exact E|]. rewrite H. ring.
Qed.
Lemma one_ne_zero : one <> zero. Proof. exact (F_1_neq_0 Fth). Qed.
#[local] Instance F_id : Integral_domain (Rcr:=F_cring).
Proof. constructor; [exact F_integral | exact one_ne_zero]. Qed.
Notation "x + y" := (add x y). Notation "x * y" := (mul x y). Notation "x - y" := (sub x y). Notation "0" := zero. Notation "1":=one.
Notation "x / y" := (div x y). Notation "- x" := (opp x).
Hypothesis two_ne : 1+1 <> 0.
Hypothesis three_ne : 1+1+1 <> 0.
Variables a b : F.
Hypothesis disc : (1+1+1+1)*a*a*a+((1+1+1)*(1+1+1)*(1+1+1))*b*b <> 0.
Inductive pt := Inf | Aff (x y : F).
Definition on (P : pt) := match P with Inf => True | Aff x y => y*y = x*x*x+a*x+b end.
Definition neg P := match P with Inf => Inf | Aff x y => Aff x (-y) end.
Definition chord l x1 y1 x2 := let x := l*l-x1-x2 in Aff x (l*(x1-x)-y1).
Definition padd (P Q : pt) : pt := match P, Q with
 | Inf, _ => Q | _, Inf => P
 | Aff x1 y1, Aff x2 y2 =>
   if Fdec x1 x2 then
     if Fdec (y1+y2) 0 then Inf
     else chord (((1+1+1)*x1*x1+a)/((1+1)*y1)) x1 y1 x1
   else chord ((y2-y1)/(x2-x1)) x1 y1 x2
 end.

Definition div_ok n d : d <> 0 -> exists i, i * d = 1 /\ n / d = n * i.
Proof. intros H. exists (inv d). split; [field;exact H| field; exact H]. Qed.

Lemma neq_inv x y : x <> y -> exists i, i * (x - y) = 1.
Proof. intros H. exists (inv (x-y)). field. intro E. apply H. nsatz. Qed.
Lemma chord_div n d x1 y1 x2 : d <> 0 -> exists i, i * d = 1 /\ chord (n/d) x1 y1 x2 = Aff ((n*i)*(n*i)-x1-x2) ((n*i)*(x1-((n*i)*(n*i)-x1-x2)) - y1).
Proof. intros H. destruct (div_ok n H) as (i & Hi & E). exists i. split; auto. rewrite E. reflexivity. Qed.
Lemma two_y y1 y2 : y1*y1 = y2*y2 -> y1+y2 <> 0 -> y1 = y2 /\ (1+1)*y1 <> 0.
Proof. intros H N. assert (E:y1=y2). { assert ((y1-y2)*(y1+y2) = 0) by nsatz. apply F_integral in H0 as [H0|H0]; [nsatz|contradiction]. }
  split; auto. intro E2. apply N. subst y1. clear H. transitivity ((1+1)*y2); [ring|exact E2]. Qed.
Lemma x_ne_d x1 x2 : x1 <> x2 -> x2 - x1 <> 0.
Proof. intros H E. apply H. nsatz. Qed.
Lemma on_padd P Q : on P -> on Q -> on (padd P Q).
Proof.
  destruct P as [|x1 y1], Q as [|x2 y2]; cbn [padd]; intros HP HQ; auto.
  cbn [on] in HP, HQ.
  destruct (Fdec x1 x2) as [->|E].
  - destruct (Fdec (y1+y2) 0) as [|N]; cbn [on]; auto.
    destruct (@two_y y1 y2) as [-> D]; auto. { nsatz. }
    destruct (chord_div ((1+1+1)*x2*x2+a) x2 y2 x2 D) as (i & Hi & ->). cbn [on]. nsatz.
  - destruct (chord_div (y2-y1) x1 y1 x2 (x_ne_d E)) as (i & Hi & ->). cbn [on]. nsatz.
Qed.

Lemma padd_comm P Q : on P -> on Q -> padd P Q = padd Q P.
Proof.
  destruct P as [|x1 y1], Q as [|x2 y2]; cbn [padd on]; intros HP HQ; auto.
  destruct (Fdec x1 x2) as [E|E], (Fdec x2 x1) as [E'|E']; try congruence.
  - subst x2. clear E'. destruct (Fdec (y1+y2) 0) as [N|N], (Fdec (y2+y1) 0) as [N'|N']; auto.
   + exfalso; apply N'; nsatz. + exfalso; apply N; nsatz.
   + destruct (@two_y y1 y2) as [-> D]; auto. nsatz.
  - destruct (chord_div (y2-y1) x1 y1 x2 (x_ne_d E)) as (i & Hi & ->).
    destruct (chord_div (y1-y2) x2 y2 x1 (x_ne_d E')) as (j & Hj & ->).
    f_equal; nsatz.
Qed.
(* relational version, for associativity *)
Inductive addR : pt -> pt -> pt -> Prop :=
| A_inf_l Q : addR Inf Q Q
| A_inf_r P : addR P Inf P
| A_opp x y1 y2 : y2 = - y1 -> addR (Aff x y1) (Aff x y2) Inf
| A_dbl x y l x' y' : (1+1)*y <> 0 -> l * ((1+1)*y) = (1+1+1)*x*x+a -> x' = l*l-x-x -> y' = l*(x-x')-y ->
    addR (Aff x y) (Aff x y) (Aff x' y')
| A_gen x1 y1 x2 y2 l x' y' : x2 - x1 <> 0 -> l * (x2-x1) = y2-y1 -> x' = l*l-x1-x2 -> y' = l*(x1-x')-y1 ->
    addR (Aff x1 y1) (Aff x2 y2) (Aff x' y').
Lemma padd_R P Q : on P -> on Q -> addR P Q (padd P Q).
Proof.
  destruct P as [|x1 y1], Q as [|x2 y2]; cbn [padd on]; intros HP HQ; try constructor.
  destruct (Fdec x1 x2) as [E|E].
  - subst x1. destruct (Fdec (y1+y2) 0) as [N|N]; [constructor; nsatz|].
    destruct (@two_y y1 y2) as [-> D]; auto. nsatz.
    eapply A_dbl with (l := ((1+1+1)*x2*x2+a)/((1+1)*y2)); auto. field. split; intro K; apply D; rewrite K; ring.
  - assert (D := x_ne_d E). eapply A_gen with (l := (y2-y1)/(x2-x1)); auto. field. exact D.
Qed.

Ltac inv_ne := repeat match goal with H : ?d <> 0 |- _ => tryif constr_eq d (one+one) then fail else tryif constr_eq d (one+one+one) then fail else let i := fresh "i" in let Hi := fresh "Hi" in
   assert (exists i, i * d = 1) as [i Hi] by (exists (inv d); apply (Finv_l Fth); exact H); clear H end.
Lemma aff_eq x y x' y' : x = x' -> y = y' -> Aff x y = Aff x' y'.
Proof. congruence. Qed.

Lemma mul_ne x y : x <> 0 -> y <> 0 -> x * y <> 0.
Proof. intros Hx Hy E. apply F_integral in E as [E|E]; auto. Qed.
Ltac prodne := repeat first [exact two_ne | exact three_ne | apply mul_ne].
Ltac cne_with e := 
  let N := fresh "N" in let C := fresh "C" in 
  assert (N : e <> 0) by prodne; intro C; apply N; cbv [equality eq_notation Algebra_syntax.zero zero_notation] in C;
  first [ transitivity (opp 0); [rewrite <- C; cbv -[add mul opp zero one sub]; ring | ring] 
        | rewrite <- C; cbv -[add mul opp zero one sub]; ring].
Ltac cne := 
  let t2 := constr:(1+1) in let t3 := constr:(1+1+1) in
  first [cne_with t2 | cne_with t3 | cne_with (t2*t2) | cne_with (t2*t3) | cne_with (t3*t3) | cne_with (t2*t2*t2) | cne_with (t2*t2*t3) | cne_with (t2*t3*t3) 
   | cne_with (t2*t2*t2*t2) | cne_with (t2*t2*t2*t3) | cne_with (t2*t2*t3*t3) | cne_with (t3*t3*t3)|cne_with (t2*t2*t2*t2*t3)|cne_with (t2*t2*t2*t2*t2)| cne_with (t2*t3*t3*t3)|cne_with (t2*t2*t3*t3*t3)].
Ltac ns := solve [ timeout 100 nsatz; cne ].
Ltac contr := exfalso; apply one_ne_zero; ns.
Lemma assoc_R P Q R PQ QR S T : on P -> on Q -> on R -> addR P Q PQ -> addR Q R QR -> addR PQ R S -> addR P QR T -> S = T.
Proof.
  intros HP HQ HR H1 H2 H3 H4.
  inversion H1; subst; clear H1; inversion H2; subst; clear H2; inversion H3; subst; clear H3; inversion H4; subst; clear H4; auto.
  all: cbn [on] in HP, HQ, HR.
  all: pose proof disc as DISC; clear disc; revert DISC.
  all: inv_ne; intros DISC.
  all: try match goal with |- Inf = _ => contr | |- _ = Inf => contr | |- _ => first [apply aff_eq; ns | contr] end.
  all: exfalso; apply DISC; nsatz; cne.
Qed.
Theorem padd_assoc P Q R : on P -> on Q -> on R -> padd (padd P Q) R = padd P (padd Q R).
Proof.
  intros HP HQ HR. pose proof (on_padd P Q HP HQ). pose proof (on_padd Q R HQ HR).
  eapply assoc_R with (P:=P) (Q:=Q) (R:=R); eauto using padd_R.
Qed.
Lemma padd_neg P : on P -> padd P (neg P) = Inf.
Proof. destruct P as [|x y]; cbn [neg padd]; auto. intros _. destruct (Fdec x x); [|congruence].
  destruct (Fdec (y + - y) 0); auto. exfalso. apply n. ring. Qed.
Lemma on_neg P : on P -> on (neg P).
Proof. destruct P; cbn [neg on]; auto. intros H. nsatz. Qed.
Lemma padd_inf_l P : padd Inf P = P. Proof. reflexivity. Qed.
Lemma padd_inf_r P : padd P Inf = P. Proof. destruct P; reflexivity. Qed.
End EC.
