(** Integers modulo p form a field (p is prime); the P-256 group law over it. *)
From Coq Require Import ZArith Znumtheory Lia List Bool Field.
From Coq Require Import ZifyBool ZifyNat ZifyN.
From Verif Require Import Base Spec_P256 NT_Prime NT_P256.
From Verif Require EC_Abs.
Import ListNotations.
Open Scope Z_scope.

Lemma p256_gt1 : 1 < p256. Proof. reflexivity. Qed.
Lemma p256_pos : 0 < p256. Proof. reflexivity. Qed.
Lemma p256_ne : p256 <> 0. Proof. discriminate. Qed.
Lemma fval_range x : 0 <= fval x < p256.
Proof.
  destruct x as [x Hx]. cbn [fval proj1_sig]. apply Z.eqb_eq in Hx. rewrite Hx. apply Z.mod_pos_bound. apply p256_pos.
Qed.
Lemma fval_toF z : fval (toF z) = z mod p256. Proof. reflexivity. Qed.
Lemma feq x y : fval x = fval y -> x = y.
Proof.
  destruct x as [x Hx], y as [y Hy]. cbn [fval proj1_sig]. intros E. subst y. f_equal. apply (Eqdep_dec.UIP_dec Bool.bool_dec).
Qed.
Lemma toF_fval x : toF (fval x) = x.
Proof. apply feq. rewrite fval_toF. apply Z.mod_small. apply fval_range. Qed.
Lemma toF_eq a b : a mod p256 = b mod p256 <-> toF a = toF b.
Proof. split; intros H; [apply feq; rewrite !fval_toF; exact H|]. rewrite <- !fval_toF, H. reflexivity. Qed.
Lemma toF_add a b : toF (a + b) = fadd (toF a) (toF b).
Proof. unfold fadd. rewrite !fval_toF. apply toF_eq. apply Zplus_mod. Qed.
Lemma toF_sub a b : toF (a - b) = fsub (toF a) (toF b).
Proof. unfold fsub. rewrite !fval_toF. apply toF_eq. apply Zminus_mod. Qed.
Lemma toF_mul a b : toF (a * b) = fmul (toF a) (toF b).
Proof. unfold fmul. rewrite !fval_toF. apply toF_eq. apply Zmult_mod. Qed.
Lemma toF_opp a : toF (- a) = fopp (toF a).
Proof. unfold fopp. rewrite fval_toF. apply toF_eq. rewrite <- (Z.sub_0_l a), <- (Z.sub_0_l (a mod p256)). symmetry. apply Zminus_mod_idemp_r. Qed.
Lemma toF_mod a : toF (a mod p256) = toF a.
Proof. apply toF_eq. apply Z.mod_mod. apply p256_ne. Qed.
Lemma toF_0_iff a : toF a = f0 <-> a mod p256 = 0.
Proof. unfold f0. rewrite <- toF_eq. reflexivity. Qed.

(** choose representatives *)
Lemma F_ind (P : Fp -> Prop) : (forall z, P (toF z)) -> forall x, P x.
Proof. intros H x. rewrite <- (toF_fval x). apply H. Qed.
Lemma fpow_spec x e : fpow x e = toF (fval x ^ Zpos e).
Proof.
  induction e as [e IH|e IH|]; cbn [fpow].
  - rewrite IH. rewrite Pos2Z.inj_xI. replace (2 * Zpos e + 1) with (Zpos e + Zpos e + 1) by lia.
    rewrite !Z.pow_add_r, Z.pow_1_r, !toF_mul, toF_fval by lia. reflexivity.
  - rewrite IH. rewrite Pos2Z.inj_xO. replace (2 * Zpos e) with (Zpos e + Zpos e) by lia.
    rewrite !Z.pow_add_r, !toF_mul by lia. reflexivity.
  - rewrite Z.pow_1_r, toF_fval. reflexivity.
Qed.
Lemma pm2 : Zpos (Z.to_pos (p256 - 2)) = p256 - 2. Proof. apply Z2Pos.id. reflexivity. Qed.
Lemma finv_spec x : finv x = toF (fval x ^ (p256 - 2)).
Proof. unfold finv. rewrite fpow_spec, pm2. reflexivity. Qed.
Lemma pm2_nn : 0 <= p256 - 2. Proof. discriminate. Qed.
Lemma succ_sub2 p : Z.succ (p - 2) = p - 1. Proof. lia. Qed.
Lemma finv_l x : x <> f0 -> fmul (finv x) x = f1.
Proof.
  intros N. rewrite finv_spec. rewrite <- (toF_fval x) at 2. rewrite <- toF_mul, Z.mul_comm, <- Z.pow_succ_r by apply pm2_nn.
  rewrite succ_sub2. unfold f1. apply toF_eq. rewrite fermat; [symmetry; apply Z.mod_small; split; [discriminate|apply p256_gt1]|apply prime_p256|].
  intros D. apply N. rewrite <- (toF_fval x). apply toF_0_iff. apply Z.mod_divide; [apply p256_ne|exact D].
Qed.
Definition Fth : field_theory f0 f1 fadd fmul fsub fopp fdiv finv (@eq Fp).
Proof.
  constructor.
  - constructor; unfold f0, f1; intros;
      repeat match goal with x : Fp |- _ => revert x; apply F_ind; intros x end;
      rewrite <- ?toF_add, <- ?toF_mul, <- ?toF_opp, <- ?toF_sub, <- ?toF_add, <- ?toF_mul, <- ?toF_add; f_equal; ring.
  - intros E. apply (f_equal fval) in E. vm_compute in E. discriminate E.
  - reflexivity.
  - exact finv_l.
Qed.
Add Field Fp_field : Fth.

Definition feqb (a b : Fp) : bool := fval a =? fval b.
Lemma feqb_ne a b : feqb a b = false -> a <> b.
Proof. intros H ->. unfold feqb in H. rewrite Z.eqb_refl in H. discriminate. Qed.
Lemma two_ne : fadd f1 f1 <> f0. Proof. apply feqb_ne. vm_compute. reflexivity. Qed.
Lemma three_ne : fadd (fadd f1 f1) f1 <> f0. Proof. apply feqb_ne. vm_compute. reflexivity. Qed.
Lemma cA_eq : cA = fopp (fadd (fadd f1 f1) f1). Proof. apply feq. vm_compute. reflexivity. Qed.
Lemma disc_ne :
  fadd (fmul (fmul (fmul (fadd (fadd (fadd f1 f1) f1) f1) cA) cA) cA)
       (fmul (fmul (fmul (fmul (fadd (fadd f1 f1) f1) (fadd (fadd f1 f1) f1)) (fadd (fadd f1 f1) f1)) cB) cB) <> f0.
Proof. apply feqb_ne. vm_compute. reflexivity. Qed.

(** ** The group *)
Lemma on_eadd P Q : oncurve P -> oncurve Q -> oncurve (eadd P Q).
Proof. exact (EC_Abs.on_padd Fth feq_dec cA cB P Q). Qed.
Lemma eadd_comm P Q : oncurve P -> oncurve Q -> eadd P Q = eadd Q P.
Proof. exact (EC_Abs.padd_comm Fth feq_dec cA cB P Q). Qed.
Lemma eadd_assoc P Q R : oncurve P -> oncurve Q -> oncurve R -> eadd (eadd P Q) R = eadd P (eadd Q R).
Proof. exact (EC_Abs.padd_assoc Fth feq_dec two_ne three_ne cA cB disc_ne P Q R). Qed.
Lemma eadd_neg P : oncurve P -> eadd P (eneg P) = Inf.
Proof. exact (EC_Abs.padd_neg Fth feq_dec cA cB P). Qed.
Lemma on_eneg P : oncurve P -> oncurve (eneg P).
Proof. exact (EC_Abs.on_neg Fth feq_dec cA cB P). Qed.
Lemma eadd_inf_l P : eadd Inf P = P. Proof. reflexivity. Qed.
Lemma eadd_inf_r P : eadd P Inf = P. Proof. destruct P; reflexivity. Qed.
Lemma on_Inf : oncurve Inf. Proof. exact I. Qed.
Lemma on_nmul n P : oncurve P -> oncurve (nmul n P).
Proof. intros H. induction n as [|n IH]; [exact I|]. apply on_eadd; assumption. Qed.
Lemma nmul_add m n P : oncurve P -> nmul (m + n) P = eadd (nmul m P) (nmul n P).
Proof.
  intros H. induction m as [|m IH]; [reflexivity|]. cbn [Nat.add nmul]. rewrite IH. symmetry.
  apply eadd_assoc; try assumption; apply on_nmul; assumption.
Qed.
Lemma nmul_Inf n : nmul n Inf = Inf.
Proof. induction n as [|n IH]; [reflexivity|]. cbn [nmul]. rewrite IH. reflexivity. Qed.
Lemma nmul_mul m n P : oncurve P -> nmul (m * n) P = nmul m (nmul n P).
Proof.
  intros H. induction m as [|m IH]; [reflexivity|]. cbn [Nat.mul nmul]. rewrite nmul_add, IH by assumption. reflexivity.
Qed.
(** the exchange of two scalars *)
Lemma nmul_comm m n P : oncurve P -> nmul m (nmul n P) = nmul n (nmul m P).
Proof. intros H. rewrite <- !nmul_mul by assumption. f_equal. apply Nat.mul_comm. Qed.
Lemma eadd_cancel P Q : oncurve P -> oncurve Q -> eadd P Q = P -> Q = Inf.
Proof.
  intros HP HQ E. assert (X : eadd (eneg P) (eadd P Q) = eadd (eneg P) P) by congruence.
  rewrite <- eadd_assoc in X by (assumption || apply on_eneg; assumption).
  rewrite (eadd_comm (eneg P) P), eadd_neg in X by (assumption || apply on_eneg; assumption). exact X.
Qed.
Lemma on_G : oncurve Gpt.
Proof. unfold oncurve, Gpt, Aff. cbn [EC_Abs.on]. apply feq. vm_compute. reflexivity. Qed.
