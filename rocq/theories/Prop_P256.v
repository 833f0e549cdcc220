(** Properties C42-C48: src/crypto/p256.rs. *)
From Verif Require Import Spec_P256 Spec_Point P_Limbs P_Mult P_P256conv NT_P256 P_Inverse P_Fp P_Points NT_Order P_Scalar P_P256X.
From Coq Require Import Znumtheory.

(** ** C42: [limbs_val] is the integer held, [reduced] is being below p.  Every mode: no debug assertion fires. *)
Theorem C42_add : forall m a b, reduced a -> reduced b ->
  exists v, iadd m a b = Ok v /\ reduced v /\ limbs_val v = (limbs_val a + limbs_val b) mod p256.
Proof. exact iadd_spec. Qed.
Print Assumptions C42_add.
Theorem C42_sub : forall m a b, reduced a -> reduced b ->
  exists v, isub m a b = Ok v /\ reduced v /\ limbs_val v = (limbs_val a - limbs_val b) mod p256.
Proof. exact isub_spec. Qed.
Print Assumptions C42_sub.
Theorem C42_double : forall m a, reduced a ->
  exists v, idouble m a = Ok v /\ reduced v /\ limbs_val v = (2 * limbs_val a) mod p256.
Proof. exact idouble_spec. Qed.
Print Assumptions C42_double.
Theorem C42_mult : forall m a b, int256_ok a -> int256_ok b ->
  exists v, imult m a b = Ok v /\ reduced v /\ limbs_val v = (limbs_val a * limbs_val b) mod p256.
Proof. exact imult_spec. Qed.
Print Assumptions C42_mult.
Theorem C42_square : forall m a, int256_ok a ->
  exists v, isquare m a = Ok v /\ reduced v /\ limbs_val v = (limbs_val a * limbs_val a) mod p256.
Proof. exact isquare_spec. Qed.
Print Assumptions C42_square.
Theorem C42_divide_by_2 : forall a, reduced a ->
  reduced (divide_by_2 a) /\ (2 * limbs_val (divide_by_2 a)) mod p256 = limbs_val a.
Proof. exact divide_by_2_spec. Qed.
Print Assumptions C42_divide_by_2.
Theorem C42_compare : forall a b, int256_ok a -> int256_ok b -> icompare a b = if limbs_val a =? limbs_val b then 0 else 1.
Proof. exact icompare_spec. Qed.
Print Assumptions C42_compare.
Theorem C42_choose : forall a b, int256_ok a -> int256_ok b -> ichoose 0 a b = a /\ ichoose 1 a b = b.
Proof. exact (fun a b Ha Hb => conj (ichoose_0 a b Ha) (ichoose_1 a b Ha Hb)). Qed.
Print Assumptions C42_choose.

(** p - 1 is a reduced operand that exercises the final reduction *)
Example ex_field : reduced [0xfffffffe; 0xffffffff; 0xffffffff; 0; 0; 0; 1; 0xffffffff] /\
  limbs_val [0xfffffffe; 0xffffffff; 0xffffffff; 0; 0; 0; 1; 0xffffffff] = p256 - 1 /\
  iadd Debug [0xfffffffe; 0xffffffff; 0xffffffff; 0; 0; 0; 1; 0xffffffff] ONE = Ok ZERO /\
  imult Debug [0xfffffffe; 0xffffffff; 0xffffffff; 0; 0; 0; 1; 0xffffffff] [0xfffffffe; 0xffffffff; 0xffffffff; 0; 0; 0; 1; 0xffffffff] = Ok ONE.
Proof.
  split; [split; [split; [reflexivity|repeat constructor; lia]|vm_compute; reflexivity]|].
  split; [vm_compute; reflexivity|]. split; vm_compute; reflexivity.
Qed.

(** ** C43 *)
Theorem C43_p_is_prime : prime p256.
Proof. exact prime_p256. Qed.
Print Assumptions C43_p_is_prime.
Theorem C43_inverse : forall m x, reduced x ->
  exists v, iinverse m x = Ok v /\ reduced v /\
    (limbs_val x <> 0 -> (limbs_val v * limbs_val x) mod p256 = 1) /\ (limbs_val x = 0 -> limbs_val v = 0).
Proof. exact iinverse_spec. Qed.
Print Assumptions C43_inverse.
Example ex_inverse : reduced [2; 0; 0; 0; 0; 0; 0; 0] /\ limbs_val [2; 0; 0; 0; 0; 0; 0; 0] <> 0.
Proof. split; [split; [split; [reflexivity|repeat constructor; lia]|reflexivity]|discriminate]. Qed.

(** ** C44: [be 32 n] is the 32-byte big-endian representation *)
Theorem C44_to_bytes : forall a, int256_ok a -> to_bytes a = be 32 (limbs_val a).
Proof. exact to_bytes_spec. Qed.
Print Assumptions C44_to_bytes.
Theorem C44_from_bytes_accepts : forall b, length b = 32%nat ->
  exists a, from_bytes b = Some a /\ int256_ok a /\ limbs_val a = be_val b.
Proof. exact from_bytes_some. Qed.
Print Assumptions C44_from_bytes_accepts.
Theorem C44_from_bytes_rejects : forall b, length b <> 32%nat -> from_bytes b = None.
Proof. exact from_bytes_none. Qed.
Print Assumptions C44_from_bytes_rejects.
Theorem C44_round_trip : forall a, int256_ok a -> from_bytes (to_bytes a) = Some a.
Proof. exact from_to_bytes. Qed.
Print Assumptions C44_round_trip.
Theorem C44_round_trip_bytes : forall b a, from_bytes b = Some a -> to_bytes a = b.
Proof. exact to_from_bytes. Qed.
Print Assumptions C44_round_trip_bytes.
Example ex_bytes : to_bytes [0x04030201; 0; 0; 0; 0; 0; 0; 0xfffefdfc] = [xff; xfe; xfd; xfc] ++ zeros 24 ++ [x04; x03; x02; x01].
Proof. reflexivity. Qed.

(** ** C45.  [enc x y] is 04 || x || y, big-endian; [oncurve (Aff x y)] is y^2 = x^3 - 3x + b modulo p *)
Theorem C45_noncanonical_refuted : exists data N,
  from_uncompressed_bytes Release data = Ok (Some N) /\ from_uncompressed_bytes Debug data = Ok (Some N) /\
  data = enc p256 big_y /\ limbs_val (nx N) = p256.
Proof. exact noncanonical_refuted. Qed.
Print Assumptions C45_noncanonical_refuted.
Theorem C45_off_curve_refuted : exists data N,
  from_uncompressed_bytes Release data = Ok (Some N) /\ ~ oncurve (Aff (fv (nx N)) (fv (ny N))).
Proof. exact off_curve_refuted. Qed.
Print Assumptions C45_off_curve_refuted.
Theorem C45_panic_refuted : exists data, from_uncompressed_bytes Debug data = Panic.
Proof. exact panic_refuted. Qed.
Print Assumptions C45_panic_refuted.
(** what does hold *)
Theorem C45_shape : forall m data, ~ (length data = 65%nat /\ nth 0 data x00 = x04) -> from_uncompressed_bytes m data = Ok None.
Proof. exact decode_shape. Qed.
Print Assumptions C45_shape.
Theorem C45_canonical : forall m x y, 0 <= x < p256 -> 0 <= y < p256 ->
  (oncurve (Aff (toF x) (toF y)) /\ exists N, from_uncompressed_bytes m (enc x y) = Ok (Some N) /\ limbs_val (nx N) = x /\ limbs_val (ny N) = y) \/
  (~ oncurve (Aff (toF x) (toF y)) /\ from_uncompressed_bytes m (enc x y) = Ok None).
Proof. exact decode_enc. Qed.
Print Assumptions C45_canonical.
Theorem C45_release_total : forall data, exists r, from_uncompressed_bytes Release data = Ok r.
Proof. exact decode_release_total. Qed.
Print Assumptions C45_release_total.
Theorem C45_debug_on_curve : forall data N, from_uncompressed_bytes Debug data = Ok (Some N) -> oncurve (Aff (fv (nx N)) (fv (ny N))).
Proof. exact decode_debug_on_curve. Qed.
Print Assumptions C45_debug_on_curve.
Theorem C45_round_trip : forall m N, reduced (nx N) -> reduced (ny N) -> oncurve (Aff (fv (nx N)) (fv (ny N))) ->
  from_uncompressed_bytes m (to_uncompressed_bytes N) = Ok (Some N).
Proof. exact decode_encode. Qed.
Print Assumptions C45_round_trip.
Theorem C45_encoding : forall N, reduced (nx N) -> reduced (ny N) -> to_uncompressed_bytes N = sec1 (fv (nx N)) (fv (ny N)).
Proof. exact encode_sec1. Qed.
Print Assumptions C45_encoding.
Example ex_decode : oncurve (Aff (toF Gx) (toF Gy)) /\ ~ oncurve (Aff (toF Gx) (toF (Gy + 1))).
Proof. split; [exact on_G|]. rewrite curve_eq. apply feqb_ne. vm_compute. reflexivity. Qed.

(** ** C46.  [jac P] is the affine point a Jacobian triple represents, [eadd] the chord-and-tangent sum *)
Theorem C46_double : forall m P, pok P ->
  exists R, pdouble m P = Ok R /\ pok R /\ jac R = eadd (jac P) (jac P) /\ reduced (px R) /\ reduced (py R).
Proof. exact pdouble_spec. Qed.
Print Assumptions C46_double.
Theorem C46_add : forall m P Q, pok P -> pok Q -> oncurve (jac P) -> oncurve (jac Q) ->
  exists R, ppadd m P Q = Ok R /\ pok R /\ jac R = eadd (jac P) (jac Q).
Proof. exact ppadd_spec. Qed.
Print Assumptions C46_add.
Theorem C46_normalize : forall m P, pok P -> exists N, normalize m P = Ok N /\ reduced (nx N) /\ reduced (ny N) /\
  (jac P = Aff (fv (nx N)) (fv (ny N)) \/ jac P = Inf /\ fv (nx N) = f0 /\ fv (ny N) = f0).
Proof. exact normalize_spec. Qed.
Print Assumptions C46_normalize.
Theorem C46_closed : forall P Q, oncurve P -> oncurve Q -> oncurve (eadd P Q).
Proof. exact on_eadd. Qed.
Print Assumptions C46_closed.
Theorem C46_group : forall P Q R, oncurve P -> oncurve Q -> oncurve R ->
  eadd (eadd P Q) R = eadd P (eadd Q R) /\ eadd P Q = eadd Q P /\ eadd P Inf = P /\ eadd P (eneg P) = Inf /\ oncurve (eneg P).
Proof. exact group_laws. Qed.
Print Assumptions C46_group.
Example ex_points : pok G /\ jac G = Gpt /\ oncurve (jac G) /\ pok INFTY /\ jac INFTY = Inf.
Proof. split; [exact G_pok|]. split; [exact G_jac|]. split; [rewrite G_jac; exact on_G|]. split; [exact INFTY_pok|exact INFTY_jac]. Qed.

(** ** C47.  The loops visit only bits 0..7 of limbs 0..6: the scalar used is [eff_scalar n] *)
Theorem C47_refuted : exists P n, forall m, pok P /\ oncurve (jac P) /\ reduced n /\
  exists R, mult_scalar m P n = Ok R /\ jac R <> nmul (Z.to_nat (limbs_val n)) (jac P).
Proof. exact scalar_refuted. Qed.
Print Assumptions C47_refuted.
Theorem C47_effective_scalar : forall m P n, pok P -> oncurve (jac P) -> int256_ok n ->
  exists R, mult_scalar m P n = Ok R /\ pok R /\ jac R = nmul (Z.to_nat (eff_scalar n)) (jac P).
Proof. exact mult_scalar_spec. Qed.
Print Assumptions C47_effective_scalar.
Theorem C47_only_56_bits : forall n, 0 <= eff_scalar n < 2 ^ 56.
Proof. exact eff_scalar_range. Qed.
Print Assumptions C47_only_56_bits.
Theorem C47_small_scalars : forall m P n, pok P -> oncurve (jac P) -> int256_ok n -> limbs_val n < 256 ->
  exists R, mult_scalar m P n = Ok R /\ pok R /\ jac R = nmul (Z.to_nat (limbs_val n)) (jac P).
Proof. exact small_scalars. Qed.
Print Assumptions C47_small_scalars.
(** the base point has the prime order n *)
Theorem C47_base_point_order : prime n256 /\ nmul (Z.to_nat n256) Gpt = Inf /\ forall e, 0 < e < n256 -> nmul (Z.to_nat e) Gpt <> Inf.
Proof. exact (conj prime_n256 (conj order_n order_exact)). Qed.
Print Assumptions C47_base_point_order.
Example ex_scalar : eff_scalar [0x1ff; 0x102; 0; 0; 0; 0; 0; 0xffffffff] = 255 + 256 * 2.
Proof. reflexivity. Qed.

(** ** C48: [dh_public] and [dh_shared] are the two combinations made by ecdhe.rs *)
Theorem C48_agreement : forall m a b, int256_ok a -> int256_ok b ->
  exists A B S, dh_public m a = Ok A /\ dh_public m b = Ok B /\ dh_shared m B a = Ok S /\ dh_shared m A b = Ok S.
Proof. exact dh_agree. Qed.
Print Assumptions C48_agreement.
(** the public value is the multiple of the base point, except that a zero effective scalar gives (0, 0) *)
Theorem C48_public_value : forall m a, int256_ok a ->
  exists A, dh_public m a = Ok A /\ reduced (nx A) /\ reduced (ny A) /\
   (eff_scalar a <> 0 -> Aff (fv (nx A)) (fv (ny A)) = nmul (Z.to_nat (eff_scalar a)) Gpt) /\
   (eff_scalar a = 0 -> nx A = ZERO /\ ny A = ZERO).
Proof. exact dh_public_spec. Qed.
Print Assumptions C48_public_value.
(** the shared secret is the product of the two scalars with the base point: in particular not always the same value *)
Theorem C48_shared_value : forall m a b A, int256_ok a -> int256_ok b -> eff_scalar a <> 0 -> eff_scalar b <> 0 ->
  dh_public m a = Ok A ->
  exists S, dh_shared m A b = Ok S /\ reduced (nx S) /\ Aff (fv (nx S)) (fv (ny S)) = nmul (Z.to_nat (eff_scalar a * eff_scalar b)) Gpt.
Proof. exact dh_shared_value. Qed.
Print Assumptions C48_shared_value.
Example ex_dh : int256_ok [3; 0; 0; 0; 0; 0; 0; 0] /\ eff_scalar [3; 0; 0; 0; 0; 0; 0; 0] <> 0.
Proof. split; [split; [reflexivity|repeat constructor; lia]|discriminate]. Qed.
