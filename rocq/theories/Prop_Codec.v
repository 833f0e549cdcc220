(** Properties C01-C07 and C13: wire formats, parsers, handshake buffer.
    Each theorem is followed by its assumptions and by a concrete instance of its hypotheses. *)
From Verif Require Import Spec_Wire Spec_Codec2 P_Codec P_CodecProps P_Extra P_Codec2.

(** ** C01 *)
Theorem C01_items_roundtrip :
  roundtrips i_alert anything /\ roundtrips i_sig_hash anything /\
  roundtrips i_sig_hash_vec (fun l => in_range 2 (2 * zlen l) 65534) /\
  roundtrips i_digitally_signed wf_digitally_signed /\ roundtrips i_cipher_suite wf_suite /\
  roundtrips i_version anything /\ roundtrips i_extension wf_ext /\
  roundtrips i_extension_vec (fun l => wf_exts (Some l)) /\
  roundtrips i_certificate_list wf_cert_list /\ roundtrips i_cert_request wf_cert_request /\
  roundtrips i_ske wf_ske /\ roundtrips i_ec_data (fun l => in_range 1 (zlen l) 255).
Proof. exact items_roundtrip. Qed.
Print Assumptions C01_items_roundtrip.

(** hello bodies extend to the end of their message *)
Theorem C01_hellos_roundtrip :
  roundtrips_last i_client_hello wf_client_hello /\ roundtrips_last i_server_hello wf_server_hello.
Proof. exact hellos_roundtrip. Qed.
Print Assumptions C01_hellos_roundtrip.

Theorem C01_handshake_roundtrip : forall h rest, wf_handshake h ->
  exists w, tls_write i_handshake h = Ok w /\ tls_read i_handshake w = Ok (h, []) /\
            get_message (w ++ rest) = (Ok (Some h), rest).
Proof. exact handshake_roundtrip. Qed.
Print Assumptions C01_handshake_roundtrip.

Example ex_server_hello : server_hello :=
  ServerHello (Version x03 x03) (repeat x07 32) [x01; x02] TLS_ECDHE_RSA_WITH_CHACHA20_POLY1305_SHA256 CM_null
    (Some [ec_point_formats [PF_uncompressed]; ext_unknown 35 []; elliptic_curves [secp256r1; secp521r1]]).
Example ex_server_hello_wf : wf_handshake (server_hello_msg ex_server_hello).
Proof.
  repeat split; cbn; try lia; try discriminate.
  repeat constructor; cbn; try lia; unfold in_range; try lia.
Qed.
Example ex_client_hello_wf :
  exists h, new_client_hello (repeat x09 32) TLS_ECDHE_RSA_WITH_CHACHA20_POLY1305_SHA256
              [elliptic_curves [secp256r1]; signature_algorithms [SigHash H_sha256 S_rsa]] = Ok h /\ wf_handshake h.
Proof.
  eexists. split; [reflexivity|]. repeat split; cbn; try lia; try discriminate.
  - repeat constructor; discriminate.
  - repeat constructor; cbn; unfold in_range; lia.
Qed.
Example ex_wf_others :
  wf_handshake (certificate [[x30; x01]; [x30]]) /\ wf_handshake (finished (repeat x01 12)) /\
  wf_handshake (certificate_request (CertRequest [CT_rsa_sign] [SigHash H_sha256 S_rsa] [[x30]])) /\
  wf_ske (Ske secp256r1 [x04; x01] (DigSigned (SigHash H_sha256 S_rsa) [x01])).
Proof. repeat split; cbn; unfold in_range; try lia; repeat constructor; cbn; lia. Qed.

(** ** C02 *)
Theorem C02_items_size :
  size_exact i_alert anything /\ size_exact i_sig_hash anything /\ size_exact i_sig_hash_vec anything /\
  size_exact i_digitally_signed anything /\ size_exact i_cipher_suite anything /\
  size_exact i_version anything /\ size_exact i_extension anything /\ size_exact i_extensions anything /\
  size_exact i_client_hello (fun h => length (ch_random h) = 32%nat) /\
  size_exact i_server_hello (fun h => length (sh_random h) = 32%nat) /\
  size_exact i_certificate_list anything /\ size_exact i_cert_request anything /\ size_exact i_ske anything.
Proof. exact items_sized. Qed.
Print Assumptions C02_items_size.

Theorem C02_handshake_size : forall h w, arrays_ok h -> tls_write i_handshake h = Ok w ->
  tls_size i_handshake h = zlen w /\
  exists body, w = [z2b (hs_type h)] ++ be 3 (zlen body) ++ body.
Proof. exact handshake_sized. Qed.
Print Assumptions C02_handshake_size.

(** the 24-bit length is the true one as long as the body is below 2^24 bytes *)
Theorem C02_length_prefix : forall h w, arrays_ok h -> tls_write i_handshake h = Ok w -> zlen w < 4 + 2 ^ 24 ->
  exists body, w = [z2b (hs_type h)] ++ sp_vec 3 body /\ be_val (be 3 (zlen body)) = zlen body.
Proof. exact handshake_prefix_true. Qed.
Print Assumptions C02_length_prefix.

(** beyond that bound [tls_write] succeeds with a wrong prefix *)
Theorem C02_handshake_prefix_refuted :
  exists h w, arrays_ok h /\ tls_write i_handshake h = Ok w /\
              be_val (firstn 3 (skipn 1 w)) <> zlen w - 4.
Proof. exact big_message_prefix_wrong. Qed.
Print Assumptions C02_handshake_prefix_refuted.

(** the same for an extension built by the crate's own constructor *)
Theorem C02_extension_prefix_refuted :
  exists l e w, new_elliptic_curve_list l = Ok e /\ tls_write i_extension e = Ok w /\
                be_val (firstn 2 (skipn 2 w)) <> zlen w - 4.
Proof. exact big_extension_prefix_wrong. Qed.
Print Assumptions C02_extension_prefix_refuted.

Example ex_sized : exists w, arrays_ok (server_hello_msg ex_server_hello) /\
  tls_write i_handshake (server_hello_msg ex_server_hello) = Ok w /\ zlen w = 66.
Proof. eexists. split; [reflexivity|]. split; [reflexivity|]. reflexivity. Qed.

(** ** C03 *)
Theorem C03_items_layout :
  written_as i_alert anything e_alert /\ written_as i_sig_hash anything e_sig_hash /\
  written_as i_digitally_signed wf_digitally_signed e_digitally_signed /\
  written_as i_extension wf_ext e_ext /\ written_as i_ske wf_ske e_ske /\
  written_as i_ec_data (fun l => in_range 1 (zlen l) 255) (sp_vec 1).
Proof. exact items_written. Qed.
Print Assumptions C03_items_layout.

Theorem C03_handshake_layout : written_as i_handshake wf_handshake e_handshake.
Proof. exact handshake_written. Qed.
Print Assumptions C03_handshake_layout.

(** ECCurve and ECParameters, alone: written as laid out, read back, and nothing else is accepted *)
Theorem C03_ec_types :
  (roundtrips i_ec_curve wf_ec_curve /\ written_as i_ec_curve wf_ec_curve e_ec_curve) /\
  (roundtrips i_ec_parameters anything /\ written_as i_ec_parameters anything (fun c => x03 :: e_curve c)).
Proof. exact ec_types. Qed.
Print Assumptions C03_ec_types.

Theorem C06_ec_types : forall bs,
  match tls_read i_ec_curve bs with
  | Ok (c, rest) => wf_ec_curve c /\ bs = e_ec_curve c ++ rest | Err _ => True | Panic | Diverge => False end /\
  match tls_read i_ec_parameters bs with
  | Ok (c, rest) => anything c /\ bs = (x03 :: e_curve c) ++ rest | Err _ => True | Panic | Diverge => False end.
Proof. exact ec_total. Qed.
Print Assumptions C06_ec_types.

(** the integer types of tls_item.rs, of which the messages use only the widths *)
Theorem C03_numbers : num_type i_u16 2 /\ num_type i_u32 4 /\ num_type i_u64 8.
Proof. exact numbers_exact. Qed.
Print Assumptions C03_numbers.
Example ex_numbers : tls_write i_u32 (2 ^ 31 + 5) = Ok [x80; x00; x00; x05] /\ tls_read i_u64 [x00; x00; x00; x01; x00; x00; x00; x02; x09] = Ok (2 ^ 32 + 2, [x09]).
Proof. vm_compute. auto. Qed.
(** explicit curves are a decode error *)
Theorem C07_other_curve_types : forall b rest, b <> x03 -> tls_read i_ec_parameters (b :: rest) = Err DecodeError.
Proof. exact other_curve_type. Qed.
Print Assumptions C07_other_curve_types.
Example ex_explicit_prime : tls_read i_ec_parameters [x01; x00; x17] = Err DecodeError.
Proof. reflexivity. Qed.

Example ex_ec_types : wf_ec_curve (EcCurve [x01; x02] [x07]) /\
  tls_read i_ec_curve [x02; x01; x02; x01; x07; x09] = Ok (EcCurve [x01; x02] [x07], [x09]) /\
  tls_read i_ec_parameters [x03; x00; x17] = Ok (secp256r1, []).
Proof. split; [split; split; vm_compute; discriminate | vm_compute; auto]. Qed.

Example ex_layout : e_handshake (finished (repeat x05 12)) = [x14; x00; x00; x0c] ++ repeat x05 12.
Proof. reflexivity. Qed.

(** ** C04 *)
(** Certificate, ServerKeyExchange, ServerHelloDone, Finished and all other non-hello messages *)
Theorem C04_reserialise_exact : forall buf h rest,
  get_message buf = (Ok (Some h), rest) ->
  (forall b, h <> client_hello_msg b) -> (forall b, h <> server_hello_msg b) ->
  exists w, tls_write i_handshake h = Ok w /\ buf = w ++ rest.
Proof. exact accepted_reserialise. Qed.
Print Assumptions C04_reserialise_exact.

(** a ServerHello loses exactly the bytes after its extension block *)
Theorem C04_server_hello : forall buf b rest,
  get_message buf = (Ok (Some (server_hello_msg b)), rest) -> sh_suite b <> UnknownCipherSuite ->
  exists w ignored,
    tls_write i_handshake (server_hello_msg b) = Ok w /\
    buf = frame x02 (e_server_hello b ++ ignored) ++ rest /\
    w = frame x02 (e_server_hello b) /\ (sh_exts b = None -> ignored = []) /\
    (ignored = [] -> buf = w ++ rest).
Proof. exact exact_server_hello. Qed.
Print Assumptions C04_server_hello.

Theorem C04_reserialise_refuted :
  exists buf h w, get_message buf = (Ok (Some h), []) /\ tls_write i_handshake h = Ok w /\ buf <> w.
Proof. exact junk_not_reserialised. Qed.
Print Assumptions C04_reserialise_refuted.

Example ex_accepted : exists h, get_message (frame x0b [x00; x00; x04; x00; x00; x01; x30]) = (Ok (Some h), []) /\
  h = certificate [[x30]].
Proof. eexists. split; reflexivity. Qed.
Example ex_accepted_hello :
  get_message junk_hello = (Ok (Some (server_hello_msg junk_hello_value)), []) /\
  sh_suite junk_hello_value <> UnknownCipherSuite.
Proof. split; [reflexivity | discriminate]. Qed.

(** ** C05 *)
Theorem C05_vectors_bounded :
  bounded i_u8 0 32 (fun _ => 1) /\                                  (* SessionID *)
  bounded i_cipher_suite 2 65534 (fun _ => 2) /\                     (* CipherSuiteVec *)
  bounded i_compression 1 255 (fun _ => 1) /\                        (* CompressionMethodVec *)
  bounded i_u8 1 (2 ^ 24 - 1) (fun _ => 1) /\                        (* ASN1Cert *)
  bounded i_named_curve 1 65535 (fun _ => 2) /\                      (* NamedCurveList *)
  bounded i_point_format 1 255 (fun _ => 1) /\                       (* ECPointFormatList *)
  bounded i_sig_hash 2 65534 (fun _ => 2) /\                         (* SignatureAndHashAlgorithmVec *)
  bounded i_u8 0 65535 (fun _ => 1) /\                               (* SignatureVec *)
  bounded i_extension 0 65535 (fun e => zlen (e_ext e)) /\           (* ExtensionVec *)
  bounded i_asn1_cert 0 (2 ^ 24 - 1) (fun c => 3 + zlen c) /\        (* CertificateList *)
  bounded i_cert_type 1 255 (fun _ => 1) /\                          (* ClientCertTypeVec *)
  bounded i_dn 0 65535 (fun c => 2 + zlen c) /\                      (* DistinguishedNameVec *)
  bounded i_u8 1 255 (fun _ => 1).                                   (* EcData *)
Proof. exact vectors_bounded. Qed.
Print Assumptions C05_vectors_bounded.

Theorem C05_vectors_refuse :
  refuses_outside i_u8 1 0 32 anything (fun b => [b]) /\
  refuses_outside i_cipher_suite 2 2 65534 wf_suite e_suite /\
  refuses_outside i_compression 1 1 255 anything e_comp /\
  refuses_outside i_u8 3 1 (2 ^ 24 - 1) anything (fun b => [b]) /\
  refuses_outside i_named_curve 2 1 65535 anything e_curve /\
  refuses_outside i_point_format 1 1 255 anything e_format /\
  refuses_outside i_sig_hash 2 2 65534 anything e_sig_hash /\
  refuses_outside i_cert_type 1 1 255 anything e_cert_type /\
  refuses_outside i_u8 1 1 255 anything (fun b => [b]).
Proof. exact vectors_refuse. Qed.
Print Assumptions C05_vectors_refuse.

(** the fixed-length types: [Random] with 32 bytes, [Finished] with 12 *)
Theorem C05_arrays : forall n v,
  (length v = n -> array_new n v = Ok v) /\ (length v <> n -> array_new n v = Err InternalError).
Proof. exact array_new_spec. Qed.
Print Assumptions C05_arrays.

Example ex_session_33 : ~ in_range 0 (total (fun _ : byte => 1) (repeat x01 33)) 32 /\
  tls_read i_session_id (x21 :: repeat x01 33) = Err DecodeError /\
  in_range 0 (total (fun _ : byte => 1) (repeat x01 32)) 32.
Proof.
  split; [intros [_ H]; vm_compute in H; congruence|].
  split; [vm_compute; reflexivity | split; vm_compute; discriminate].
Qed.

(** the crate's constructors of extensions and messages refuse exactly the lists outside the bounds *)
Theorem C05_extension_constructors :
  (forall l, accepts (new_elliptic_curve_list l) (in_range 1 (total (fun _ => 2) l) 65535) (elliptic_curves l)) /\
  (forall l, accepts (new_ec_point_formats l) (in_range 1 (total (fun _ => 1) l) 255) (ec_point_formats l)) /\
  (forall l, accepts (new_signature_algorithm_list l) (in_range 2 (total (fun _ => 2) l) 65534)
                     (signature_algorithms l)).
Proof. exact new_extensions. Qed.
Print Assumptions C05_extension_constructors.

Theorem C05_client_hello_constructor : forall random cs exts,
  accepts (new_client_hello random cs exts) (total (fun e => zlen (e_ext e)) exts <= 65535)
    (client_hello_msg (ClientHello (Version x03 x03) random [] [cs] [CM_null]
                         match exts with [] => None | _ => Some exts end)).
Proof. exact new_hello. Qed.
Print Assumptions C05_client_hello_constructor.

Theorem C05_finished_constructor : forall d,
  (length d = 12%nat -> new_finished d = Ok (finished d)) /\
  (length d <> 12%nat -> new_finished d = Err InternalError).
Proof. exact new_fin. Qed.
Print Assumptions C05_finished_constructor.

Example ex_constructors :
  new_signature_algorithm_list [] = Err DecodeError /\
  new_ec_point_formats (repeat PF_uncompressed 256) = Err DecodeError /\
  new_ec_point_formats (repeat PF_uncompressed 255) = Ok (ec_point_formats (repeat PF_uncompressed 255)).
Proof. vm_compute. auto. Qed.

(** ** C06 *)
Theorem C06_parsers_total :
  total_parser i_alert /\ total_parser i_sig_hash /\ total_parser i_sig_hash_vec /\
  total_parser i_digitally_signed /\ total_parser i_cipher_suite /\ total_parser i_version /\
  total_parser i_extension /\ total_parser i_extension_vec /\ total_parser i_client_hello /\
  total_parser i_server_hello /\ total_parser i_certificate_list /\ total_parser i_cert_request /\
  total_parser i_ske /\ total_parser i_handshake.
Proof. exact items_total. Qed.
Print Assumptions C06_parsers_total.

Theorem C06_buffer_total : forall buf,
  exists rest, snd (get_message buf) = rest /\ (exists w, buf = w ++ rest) /\
  match fst (get_message buf) with Ok _ | Err _ => True | Panic | Diverge => False end.
Proof. exact buffer_total. Qed.
Print Assumptions C06_buffer_total.

Example ex_hostile : tls_read i_certificate_list [xff; xff; xff; x00; x00; x01] = Err IoFailure /\
  tls_read i_extension_vec [x00; x05; x00; x0a; x00; x03; x00; x04; x00; x17] = Err IoFailure.
Proof. split; reflexivity. Qed.

(** ** C07 *)
Theorem C07_enums_exact :
  decodes_exactly i_alert_level 1 sp_alert_level /\ decodes_exactly i_alert_desc 1 sp_alert_desc /\
  decodes_exactly i_hash_alg 1 sp_hash_alg /\ decodes_exactly i_sig_alg 1 sp_sig_alg /\
  decodes_exactly i_compression 1 sp_compression /\ decodes_exactly i_named_curve 2 sp_named_curve /\
  decodes_exactly i_point_format 1 sp_point_format /\ decodes_exactly i_cert_type 1 sp_cert_type.
Proof. exact enums_exact. Qed.
Print Assumptions C07_enums_exact.

Theorem C07_unknown_handshake_type : forall ty body,
  ~ In ty known_hs_types -> 0 <= ty < 256 -> zlen body < 2 ^ 24 ->
  tls_read i_handshake (frame (z2b ty) body) = Err UnexpectedMessage.
Proof. exact unknown_hs_type. Qed.
Print Assumptions C07_unknown_handshake_type.

Example ex_enum : In (AD_decode_error, 50) sp_alert_desc /\ (forall a, ~ In (a, 1) sp_alert_desc) /\
  ~ In 15 known_hs_types.
Proof. split; [cbn; tauto|]. split; [intros a H; cbn in H|cbn]; intuition congruence. Qed.

(** ** C13 *)
Theorem C13_complete_message_removed : forall ty body rest,
  zlen body < 2 ^ 24 ->
  exists r, get_message (frame ty body ++ rest) = (r, rest) /\
            ((exists h, r = Ok (Some h)) \/ (exists k, r = Err k)).
Proof. exact complete_removed. Qed.
Print Assumptions C13_complete_message_removed.

Theorem C13_incomplete_message_kept : forall ty body p q,
  zlen body < 2 ^ 24 -> frame ty body = p ++ q -> q <> [] -> get_message p = (Ok None, p).
Proof. exact incomplete_kept. Qed.
Print Assumptions C13_incomplete_message_kept.

(** every buffer is one or the other *)
Theorem C13_cases_cover : forall buf,
  (exists ty body p q, zlen body < 2 ^ 24 /\ frame ty body = p ++ q /\ q <> [] /\ buf = p) \/
  (exists ty body rest, zlen body < 2 ^ 24 /\ buf = frame ty body ++ rest).
Proof. exact buffer_split. Qed.
Print Assumptions C13_cases_cover.

Example ex_malformed : get_message (frame x14 [x01; x02] ++ [x0e; x00]) = (Err IoFailure, [x0e; x00]).
Proof. reflexivity. Qed.
Example ex_incomplete : frame x14 [x01; x02] = [x14; x00; x00; x02; x01] ++ [x02].
Proof. reflexivity. Qed.
