(** Properties C32, C49 and C50 (key exchange): src/cipher/ecdhe.rs. *)
From Verif Require Import Spec_Ecdhe P_Ecdhe P_P256X P_Scalar.

(** ** C32: refuted; the named curve, the signature and trailing bytes have no influence at all *)
Theorem C32_other_curve_refuted : exists data k g, tls_read i_ske data = Ok (k, []) /\ ske_curve k <> secp256r1 /\
  forall m, exists pub pms g', compute_keys m data g = (Ok (pub, pms), g').
Proof. exact other_curve_accepted. Qed.
Print Assumptions C32_other_curve_refuted.
Theorem C32_curve_and_signature_ignored : forall m c c' pub sg sg' rest rest' g,
  wf_ske (Ske c pub sg) -> wf_digitally_signed sg' ->
  compute_keys m (e_ske (Ske c pub sg) ++ rest) g = compute_keys m (e_ske (Ske c' pub sg') ++ rest') g.
Proof. exact curve_ignored. Qed.
Print Assumptions C32_curve_and_signature_ignored.
Example ex_ske : wf_ske (Ske secp384r1 (enc Gx Gy) (DigSigned (SigHash H_sha256 S_rsa) [x01])) /\
  wf_digitally_signed (DigSigned (SigHash H_sha512 S_ecdsa) [x01; x02]).
Proof. split; [split|]; vm_compute; intuition discriminate. Qed.

(** ** C49: [draw g k] is the number in the [k]-th group of eight draws *)
Theorem C49_first_group_below_p : forall m g k, first_accepted g k ->
  exists x, get_random_x m g = (Ok x, skipn (32 * S k) g) /\ int256_ok x /\ limbs_val x = draw g k.
Proof. exact random_first. Qed.
Print Assumptions C49_first_group_below_p.
Theorem C49_source_failure : forall m g, ~ enough_randomness g -> exists g', get_random_x m g = (Panic, g').
Proof. exact random_none. Qed.
Print Assumptions C49_source_failure.
Theorem C49_only_below_p : forall m g x g', get_random_x m g = (Ok x, g') ->
  exists k, first_accepted g k /\ g' = skipn (32 * S k) g /\ int256_ok x /\ limbs_val x = draw g k.
Proof. exact random_inv. Qed.
Print Assumptions C49_only_below_p.
(** a tape whose first group is rejected (2^256 - 1) and whose second is taken; a tape with none *)
Example ex_second_group : first_accepted (repeat xff 32 ++ repeat x01 32) 1.
Proof.
  split; [cbn; lia|]. split; [vm_compute; reflexivity|]. intros [|j] Hj; [vm_compute; discriminate|lia].
Qed.
Example ex_no_group : ~ enough_randomness (repeat xff 32).
Proof.
  intros (k & L & A & _). rewrite repeat_length in L. assert (k = 0%nat) as -> by lia.
  vm_compute in A. discriminate.
Qed.

(** ** C50: every outcome of [compute_keys] *)
Theorem C50_success_shape : forall m data g pub pms g', compute_keys m data g = (Ok (pub, pms), g') ->
  length pms = 32%nat /\ length pub = 66%nat /\
  exists x y, 0 <= x < p256 /\ 0 <= y < p256 /\ pub = x41 :: enc x y.
Proof. exact keys_lengths. Qed.
Print Assumptions C50_success_shape.
Theorem C50_errors : forall m data g k g', compute_keys m data g = (Err k, g') -> g' = g /\
  (tls_read i_ske data = Err k \/
   k = IllegalParameter /\ exists p rest, tls_read i_ske data = Ok (p, rest) /\ from_uncompressed_bytes m (ske_public p) = Ok None).
Proof. exact keys_errors. Qed.
Print Assumptions C50_errors.
(** in release builds, with a working random source, there is no third outcome *)
Theorem C50_release_total : forall data g, enough_randomness g ->
  match fst (compute_keys Release data g) with Ok _ | Err _ => True | Panic | Diverge => False end.
Proof. exact keys_release. Qed.
Print Assumptions C50_release_total.
(** in debug builds there is: the overflow check fires while a point is decoded *)
Theorem C50_debug_refuted : exists data g, enough_randomness g /\ fst (compute_keys Debug data g) = Panic.
Proof. exact keys_panic. Qed.
Print Assumptions C50_debug_refuted.
Theorem C50_accepts : forall m data g k rest N j, tls_read i_ske data = Ok (k, rest) ->
  from_uncompressed_bytes m (ske_public k) = Ok (Some N) -> first_accepted g j ->
  exists x A B, int256_ok x /\ limbs_val x = draw g j /\ dh_public m x = Ok A /\ dh_shared m N x = Ok B /\
    compute_keys m data g = (Ok (x41 :: to_uncompressed_bytes A, to_bytes (nx B)), skipn (32 * S j) g).
Proof. exact compute_keys_accept. Qed.
Print Assumptions C50_accepts.
Example ex_keys : exists data k rest N, tls_read i_ske data = Ok (k, rest) /\
  (forall m, from_uncompressed_bytes m (ske_public k) = Ok (Some N)) /\ first_accepted zeros 0.
Proof. exact keys_example. Qed.
