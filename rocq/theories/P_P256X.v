(** Witnesses against C45 and C47. *)
From Coq Require Import ZArith Znumtheory Lia List Bool.
From Coq Require Import ZifyBool ZifyNat ZifyN.
From Verif Require Import Base M_P256 Spec_P256 Spec_Point P_Limbs P_Mult P_P256conv NT_Prime NT_P256 P_Inverse P_Fp P_Points NT_Order P_Scalar.
Import ListNotations.
Open Scope Z_scope.

Definition big_y : Z := 0x66485c780e2f83d72433bd5d84a06bb6541c2af31dae871728bf856a174f93f4.
Lemma noncanonical_accepted : exists N, from_uncompressed_bytes Release (enc p256 big_y) = Ok (Some N) /\
  from_uncompressed_bytes Debug (enc p256 big_y) = Ok (Some N) /\ limbs_val (nx N) = p256.
Proof. eexists. split; [vm_compute; reflexivity|]. split; vm_compute; reflexivity. Qed.
Definition off_x : Z := 2 ^ 256 - 2.
Definition off_y : Z := 0xd0aa39e2ffc2fc9571d366ff266028bbe7a4d043e68685c2f809b80ca4c646d.
Lemma off_curve_accepted : exists N, from_uncompressed_bytes Release (enc off_x off_y) = Ok (Some N) /\
  ~ oncurve (Aff (fv (nx N)) (fv (ny N))) /\ limbs_val (nx N) = off_x /\ limbs_val (ny N) = off_y.
Proof.
  eexists. split; [vm_compute; reflexivity|]. cbn [nx ny]. split; [|split; vm_compute; reflexivity].
  rewrite curve_eq. apply feqb_ne. vm_compute. reflexivity.
Qed.
Lemma debug_panics : from_uncompressed_bytes Debug (enc (2 ^ 256 - 1) (2 ^ 256 - 1)) = Panic.
Proof. vm_compute. reflexivity. Qed.

(** 256 as an eight-limb scalar: its low byte is zero *)
Definition k256 : int256 := [256; 0; 0; 0; 0; 0; 0; 0].
Lemma k256_ok : int256_ok k256. Proof. split; [reflexivity|repeat constructor; lia]. Qed.
Lemma scalar_wrong m : exists R, mult_scalar m G k256 = Ok R /\ jac R = Inf /\ nmul (Z.to_nat (limbs_val k256)) (jac G) <> Inf.
Proof.
  destruct (mult_scalar_spec m G k256 G_pok ltac:(rewrite G_jac; apply on_G) k256_ok) as (R & E & _ & J).
  exists R. split; [exact E|]. split; [rewrite J; reflexivity|]. rewrite G_jac. apply order_exact. split; reflexivity.
Qed.
(** when the limbs hold bytes, the product is right *)
Lemma eff_exact v : int256_ok v -> (limbs_val v < 256) -> eff_scalar v = limbs_val v.
Proof.
  intros Hv L. destruct (int256_cases v Hv) as (a & b & c & d & e & f & g & h & -> & A & B0 & C & D & E & F & G0 & H).
  cbn [limbs_val] in *. unfold eff_scalar. cbn [nth]. assert (b = 0 /\ c = 0 /\ d = 0 /\ e = 0 /\ f = 0 /\ g = 0 /\ h = 0) by lia.
  destruct H0 as (-> & -> & -> & -> & -> & -> & ->). rewrite Z.mod_small; [cbn; lia|lia].
Qed.
Lemma noncanonical_refuted : exists data N,
  from_uncompressed_bytes Release data = Ok (Some N) /\ from_uncompressed_bytes Debug data = Ok (Some N) /\
  data = enc p256 big_y /\ limbs_val (nx N) = p256.
Proof. destruct noncanonical_accepted as (N & A & B0 & C). exists (enc p256 big_y), N. auto. Qed.
Lemma off_curve_refuted : exists data N,
  from_uncompressed_bytes Release data = Ok (Some N) /\ ~ oncurve (Aff (fv (nx N)) (fv (ny N))).
Proof. destruct off_curve_accepted as (N & A & B0 & _). exists (enc off_x off_y), N. auto. Qed.
Lemma panic_refuted : exists data, from_uncompressed_bytes Debug data = Panic.
Proof. eexists. exact debug_panics. Qed.
Lemma enc_length x y : length (enc x y) = 65%nat.
Proof. unfold enc. cbn [length]. rewrite app_length, !be_length. reflexivity. Qed.
Lemma decode_enc m x y : 0 <= x < p256 -> 0 <= y < p256 ->
  (oncurve (Aff (toF x) (toF y)) /\ exists N, from_uncompressed_bytes m (enc x y) = Ok (Some N) /\ limbs_val (nx N) = x /\ limbs_val (ny N) = y) \/
  (~ oncurve (Aff (toF x) (toF y)) /\ from_uncompressed_bytes m (enc x y) = Ok None).
Proof.
  intros Hx Hy. destruct (decode_tail_eq m (enc x y) (enc_length x y) eq_refl) as (xv & yv & Ox & Oy & _ & _ & D & ->).
  pose proof p256_bounds as Bp.
  unfold enc in D. apply (f_equal (skipn 1)) in D. cbn [skipn] in D.
  apply app_inj_length in D as [Dx Dy]; [|rewrite be_length, to_bytes_length by assumption; reflexivity].
  assert (Vx : limbs_val xv = x) by (rewrite <- (to_bytes_val xv Ox), <- Dx, be_val_be; apply Z.mod_small; change (256 ^ Z.of_nat 32) with (2 ^ 256); lia).
  assert (Vy : limbs_val yv = y) by (rewrite <- (to_bytes_val yv Oy), <- Dy, be_val_be; apply Z.mod_small; change (256 ^ Z.of_nat 32) with (2 ^ 256); lia).
  assert (Rx : reduced xv) by (split; [assumption|lia]). assert (Ry : reduced yv) by (split; [assumption|lia]).
  destruct (decode_canonical m xv yv Rx Ry) as [[E O]|[E O]]; unfold fv in O; rewrite Vx, Vy in O; [left|right]; (split; [assumption|]); rewrite E.
  - eexists. split; [reflexivity|]. auto.
  - reflexivity.
Qed.
Lemma decode_cases m data : from_uncompressed_bytes m data = Ok None \/
  exists x y, int256_ok x /\ int256_ok y /\ from_uncompressed_bytes m data = decode_tail m x y.
Proof.
  destruct (Nat.eq_dec (length data) 65) as [L|L]; [|left; apply decode_shape; tauto].
  destruct (byte_eq_dec (nth 0 data x00) x04) as [T|T]; [|left; apply decode_shape; tauto].
  right. destruct (decode_tail_eq m data L T) as (x & y & Ox & Oy & _ & _ & _ & E). exists x, y. auto.
Qed.
Lemma decode_release_total data : exists r, from_uncompressed_bytes Release data = Ok r.
Proof.
  destruct (decode_cases Release data) as [E|(x & y & Ox & Oy & E)]; rewrite E; [eauto|].
  destruct (decode_release x y Ox Oy) as [F|F]; rewrite F; eauto.
Qed.
Lemma decode_debug_on_curve data N : from_uncompressed_bytes Debug data = Ok (Some N) -> oncurve (Aff (fv (nx N)) (fv (ny N))).
Proof.
  destruct (decode_cases Debug data) as [E|(x & y & Ox & Oy & E)]; rewrite E; [discriminate|].
  destruct (decode_debug x y Ox Oy) as [F|[F|[F O]]]; rewrite F; try discriminate. intros X. apply Ok_inj in X. inversion X. exact O.
Qed.
Lemma decode_encode m N : reduced (nx N) -> reduced (ny N) -> oncurve (Aff (fv (nx N)) (fv (ny N))) ->
  from_uncompressed_bytes m (to_uncompressed_bytes N) = Ok (Some N).
Proof.
  intros Rx Ry O. assert (L : length (to_uncompressed_bytes N) = 65%nat).
  { unfold to_uncompressed_bytes. rewrite !app_length, !to_bytes_length by (apply Rx || apply Ry). reflexivity. }
  destruct (decode_tail_eq m (to_uncompressed_bytes N) L eq_refl) as (xv & yv & Ox & Oy & _ & _ & D & ->).
  unfold to_uncompressed_bytes in D. cbn [app] in D. apply (f_equal (skipn 1)) in D. cbn [skipn] in D.
  apply app_inj_length in D as [Dx Dy]; [|rewrite !to_bytes_length by (assumption || apply Rx); reflexivity].
  assert (Ex : xv = nx N) by (apply int256_inj; [assumption|apply Rx|]; rewrite <- !to_bytes_val by (assumption || apply Rx); congruence).
  assert (Ey : yv = ny N) by (apply int256_inj; [assumption|apply Ry|]; rewrite <- !to_bytes_val by (assumption || apply Ry); congruence).
  subst xv yv. destruct (decode_canonical m _ _ Rx Ry) as [[E _]|[_ C]]; [|contradiction]. rewrite E. destruct N; reflexivity.
Qed.
Lemma encode_sec1 N : reduced (nx N) -> reduced (ny N) -> to_uncompressed_bytes N = sec1 (fv (nx N)) (fv (ny N)).
Proof.
  intros [Ox Rx] [Oy Ry]. pose proof (limbs_val_range _ Ox). pose proof (limbs_val_range _ Oy).
  unfold to_uncompressed_bytes, sec1, fv. rewrite !to_bytes_spec by assumption. rewrite !fval_toF, !Z.mod_small by lia. reflexivity.
Qed.
Lemma group_laws P Q R : oncurve P -> oncurve Q -> oncurve R ->
  eadd (eadd P Q) R = eadd P (eadd Q R) /\ eadd P Q = eadd Q P /\ eadd P Inf = P /\ eadd P (eneg P) = Inf /\ oncurve (eneg P).
Proof.
  intros HP HQ HR. split; [apply eadd_assoc; assumption|]. split; [apply eadd_comm; assumption|]. split; [apply eadd_inf_r|].
  split; [apply eadd_neg; assumption|apply on_eneg; assumption].
Qed.
Lemma scalar_refuted : exists P n, forall m, pok P /\ oncurve (jac P) /\ reduced n /\
  exists R, mult_scalar m P n = Ok R /\ jac R <> nmul (Z.to_nat (limbs_val n)) (jac P).
Proof.
  exists G, k256. intros m. split; [apply G_pok|]. split; [rewrite G_jac; apply on_G|]. split; [split; [apply k256_ok|reflexivity]|].
  destruct (scalar_wrong m) as (R & E & J & N). exists R. split; [exact E|]. rewrite J. congruence.
Qed.
Lemma small_scalars m P n : pok P -> oncurve (jac P) -> int256_ok n -> limbs_val n < 256 ->
  exists R, mult_scalar m P n = Ok R /\ pok R /\ jac R = nmul (Z.to_nat (limbs_val n)) (jac P).
Proof. intros HP OP Hn L. rewrite <- (eff_exact n Hn L). apply mult_scalar_spec; assumption. Qed.
Lemma dh_shared_value m a b A : int256_ok a -> int256_ok b -> eff_scalar a <> 0 -> eff_scalar b <> 0 ->
  dh_public m a = Ok A ->
  exists S, dh_shared m A b = Ok S /\ reduced (nx S) /\ Aff (fv (nx S)) (fv (ny S)) = nmul (Z.to_nat (eff_scalar a * eff_scalar b)) Gpt.
Proof.
  intros Ha Hb Na Nb E. destruct (dh_public_spec m a Ha) as (A' & E' & Rx & Ry & J & _). rewrite E in E'. apply Ok_inj in E'. subst A'.
  specialize (J Na). pose proof (to_point_pok A (proj1 Rx) (proj1 Ry)) as PA. pose proof (to_point_jac A) as JA. rewrite J in JA.
  destruct (mult_scalar_spec m (to_point A) b PA ltac:(rewrite JA; apply on_nmul, on_G) Hb) as (R & ER & HR & JR).
  destruct (normalize_spec m R HR) as (S0 & ES & RSx & _ & JS). exists S0. unfold dh_shared. bstep ER. split; [exact ES|]. split; [assumption|].
  rewrite JA, <- nmul_mul, <- Z2Nat.inj_mul in JR by (apply on_G || apply eff_scalar_range).
  rewrite JR in JS. rewrite Z.mul_comm. destruct JS as [JS|(JS & _)]; [symmetry; exact JS|]. exfalso. revert JS. apply order_exact.
  pose proof (eff_scalar_range a). pose proof (eff_scalar_range b). split; [nia|].
  apply Z.lt_trans with (2 ^ 56 * 2 ^ 56); [nia|reflexivity].
Qed.
