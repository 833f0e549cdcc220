(** C97: every type the macros of src/tls_item.rs can define. *)
From Verif Require Import Spec_Schema P_Schema.
Local Open Scope list_scope.
Local Open Scope Z_scope.

(** values are written as laid out, with the size announced; exactly the layouts are read; reading always answers *)
Theorem C97_exact : forall A (s : schema A), sensible s -> exact_item s.
Proof. exact schema_exact. Qed.
Print Assumptions C97_exact.
(** the size announced is right for whatever is written, also outside the bounds of its type *)
Theorem C97_size : forall A (s : schema A) v w, filled s v -> tls_write (item_of s) v = Ok w -> tls_size (item_of s) v = zlen w.
Proof. exact schema_sized. Qed.
Print Assumptions C97_size.
(** bytes can be read in one way only *)
Theorem C97_unique : forall A (s : schema A) v w r q, sensible s -> belongs s v -> belongs s w -> layout s v ++ r = layout s w ++ q -> v = w /\ r = q.
Proof. exact layout_unique. Qed.
Print Assumptions C97_unique.
(** the types of the crate are of this kind *)
Theorem C97_crate :
  (item_of s_alert_level = i_alert_level /\ item_of s_alert_desc = i_alert_desc /\ item_of s_alert = i_alert /\ item_of s_hash_alg = i_hash_alg /\ item_of s_sig_alg = i_sig_alg /\
   item_of s_sig_hash = i_sig_hash /\ item_of s_sig_hash_vec = i_sig_hash_vec /\ item_of s_signature = i_signature /\ item_of s_digitally_signed = i_digitally_signed) /\
  (item_of s_random = i_random /\ item_of s_compression = i_compression /\ item_of s_compression_vec = i_compression_vec /\ item_of s_version = i_version /\
   item_of s_session_id = i_session_id /\ item_of s_asn1_cert = i_asn1_cert /\ item_of s_named_curve = i_named_curve /\ item_of s_curve_list = i_curve_list /\
   item_of s_point_format = i_point_format /\ item_of s_point_format_list = i_point_format_list /\ item_of s_certificate_list = i_certificate_list) /\
  (item_of s_cert_type = i_cert_type /\ item_of s_cert_type_vec = i_cert_type_vec /\ item_of s_dn = i_dn /\ item_of s_dn_vec = i_dn_vec /\ item_of s_cert_request = i_cert_request /\
   item_of s_verify_data = i_verify_data /\ item_of s_ec_data = i_ec_data /\ item_of s_ec_curve = i_ec_curve /\ item_of s_ec_parameters = i_ec_parameters /\ item_of s_ske = i_ske).
Proof. exact crate_schemas. Qed.
Print Assumptions C97_crate.
(** and are well defined, so that the theorems above apply to each *)
Theorem C97_crate_sensible :
  (sensible s_alert_level /\ sensible s_alert_desc /\ sensible s_alert /\ sensible s_hash_alg /\ sensible s_sig_alg /\ sensible s_sig_hash /\ sensible s_sig_hash_vec /\ sensible s_signature /\ sensible s_digitally_signed) /\
  (sensible s_random /\ sensible s_compression /\ sensible s_compression_vec /\ sensible s_version /\ sensible s_session_id /\ sensible s_asn1_cert /\ sensible s_named_curve /\ sensible s_curve_list /\
   sensible s_point_format /\ sensible s_point_format_list /\ sensible s_certificate_list) /\
  (sensible s_cert_type /\ sensible s_cert_type_vec /\ sensible s_dn /\ sensible s_dn_vec /\ sensible s_cert_request /\ sensible s_verify_data /\ sensible s_ec_data /\ sensible s_ec_curve /\ sensible s_ec_parameters /\ sensible s_ske).
Proof. exact crate_sensible. Qed.
Print Assumptions C97_crate_sensible.
(** the length of a vector takes the fewest bytes that can hold it (RFC 5246 4.3) *)
Theorem C97_width : forall most, 0 <= most < 2 ^ 32 -> most < 256 ^ Z.of_nat (vec_width most) /\ forall w, most < 256 ^ Z.of_nat w -> (0 < w -> vec_width most <= w)%nat.
Proof. exact width_least. Qed.
Print Assumptions C97_width.
(** but not from 2^32 on, *)
Theorem C97_width_refuted : exists most, 0 <= most < 2 ^ 64 /\ exists w, most < 256 ^ Z.of_nat w /\ (0 < w < vec_width most)%nat.
Proof. exact width_wasted. Qed.
Print Assumptions C97_width_refuted.
(** and a vector of elements that may be empty is read for ever, however long one waits *)
Theorem C97_empty_refuted : exists s : schema bytes, sensible s /\ tls_read (i_vec (item_of s) 0 255) [x01] = Diverge /\ forall fuel, read_items (item_of s) fuel 0 1 [] = Diverge.
Proof. exact empty_elements. Qed.
Print Assumptions C97_empty_refuted.

(** a type the crate does not have: a tagged vector of pairs of a number and a vector *)
Example ex_schema := S_tagged 2 513 (S_vector (S_fields (S_number 3) (S_vector S_u8 1 4)) 0 300).
Example ex_schema_sensible : sensible ex_schema.
Proof. repeat split; discriminate. Qed.
Example ex_schema_value : belongs ex_schema [(66051, [x09; x08]); (1, [x07])] /\ layout ex_schema [(66051, [x09; x08]); (1, [x07])] = [x02; x01; x00; x0b; x01; x02; x03; x02; x09; x08; x00; x00; x01; x01; x07].
Proof. split; [split; [repeat constructor; cbn; try discriminate; reflexivity|split; discriminate]|reflexivity]. Qed.
Example ex_schema_reads : tls_read (item_of ex_schema) [x02; x01; x00; x05; x00; x00; x01; x01; x07; xff] = Ok ([(1, [x07])], [xff]) /\
  tls_read (item_of ex_schema) [x02; x01; x00; x04; x00; x00; x01; x01; x07; xff] = Err DecodeError /\ tls_read (item_of ex_schema) [x02; x01; x00; x05; x00] = Err IoFailure.
Proof. repeat split; reflexivity. Qed.
Example ex_widths : vec_width 0 = 1%nat /\ vec_width 255 = 1%nat /\ vec_width 256 = 2%nat /\ vec_width (2 ^ 24 - 1) = 3%nat /\ vec_width (2 ^ 32 - 1) = 4%nat /\ vec_width (2 ^ 32) = 8%nat.
Proof. repeat split; reflexivity. Qed.
Example ex_schema_oversized : filled s_session_id (repeat x05 40) /\ ~ belongs s_session_id (repeat x05 40) /\
  tls_write (item_of s_session_id) (repeat x05 40) = Ok (x28 :: repeat x05 40) /\ tls_read (item_of s_session_id) (x28 :: repeat x05 40) = Err DecodeError.
Proof.
  split; [apply Forall_forall; intros x _; exact I|]. split; [intros [_ [_ H]]; apply H; reflexivity|]. split; reflexivity.
Qed.
