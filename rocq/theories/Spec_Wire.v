(** Independent specification of the wire formats: RFC 5246 sections 4, 7.4 and A, RFC 4492 section 5,
    RFC 5246 7.4.1.4.1.  Only the data types of the messages come from the model; the layouts and the
    well-formedness conditions are written here from the RFC presentation language. *)
From Verif Require Export M_Codec.

(** [opaque v<a..b>]: length prefix of [w] bytes, then the contents (RFC 5246 4.3) *)
Definition sp_vec (w : nat) (body : bytes) : bytes := be w (zlen body) ++ body.

Definition in_range (lo x hi : Z) : Prop := lo <= x <= hi.

(** ** Code points (RFC 5246 A.1, A.3, A.4, A.6; RFC 4492 5.1.1, 5.1.2; RFC 6066 9; RFC 3749 2) *)
Definition sp_alert_level : list (alert_level * Z) := [(AL_warning, 1); (AL_fatal, 2)].
Definition sp_alert_desc : list (alert_desc * Z) :=
  [ (AD_close_notify, 0); (AD_unexpected_message, 10); (AD_bad_record_mac, 20);
    (AD_decryption_failed_RESERVED, 21); (AD_record_overflow, 22); (AD_decompression_failure, 30);
    (AD_handshake_failure, 40); (AD_no_certificate_RESERVED, 41); (AD_bad_certificate, 42);
    (AD_unsupported_certificate, 43); (AD_certificate_revoked, 44); (AD_certificate_expired, 45);
    (AD_certificate_unknown, 46); (AD_illegal_parameter, 47); (AD_unknown_ca, 48);
    (AD_access_denied, 49); (AD_decode_error, 50); (AD_decrypt_error, 51);
    (AD_export_restriction_RESERVED, 60); (AD_protocol_version, 70); (AD_insufficient_security, 71);
    (AD_internal_error, 80); (AD_user_canceled, 90); (AD_no_renegotiation, 100);
    (AD_unsupported_extension, 110); (AD_certificate_unobtainable, 111); (AD_unrecognized_name, 112);
    (AD_bad_certificate_status_response, 113); (AD_bad_certificate_hash_value, 114) ].
Definition sp_hash_alg : list (hash_alg * Z) :=
  [(H_none, 0); (H_md5, 1); (H_sha1, 2); (H_sha224, 3); (H_sha256, 4); (H_sha384, 5); (H_sha512, 6)].
Definition sp_sig_alg : list (sig_alg * Z) := [(S_anonymous, 0); (S_rsa, 1); (S_dsa, 2); (S_ecdsa, 3)].
Definition sp_compression : list (compression * Z) := [(CM_null, 0); (CM_deflate, 1)].
Definition sp_named_curve : list (named_curve * Z) :=
  [ (sect163k1, 1); (sect163r1, 2); (sect163r2, 3); (sect193r1, 4); (sect193r2, 5); (sect233k1, 6);
    (sect233r1, 7); (sect239k1, 8); (sect283k1, 9); (sect283r1, 10); (sect409k1, 11); (sect409r1, 12);
    (sect571k1, 13); (sect571r1, 14); (secp160k1, 15); (secp160r1, 16); (secp160r2, 17);
    (secp192k1, 18); (secp192r1, 19); (secp224k1, 20); (secp224r1, 21); (secp256k1, 22);
    (secp256r1, 23); (secp384r1, 24); (secp521r1, 25);
    (arbitrary_explicit_prime_curves, 65281); (arbitrary_explicit_char2_curves, 65282) ].
Definition sp_point_format : list (point_format * Z) :=
  [(PF_uncompressed, 0); (PF_compressed_prime, 1); (PF_compressed_char2, 2)].
Definition sp_cert_type : list (cert_type * Z) :=
  [ (CT_rsa_sign, 1); (CT_dss_sign, 2); (CT_rsa_fixed_dh, 3); (CT_dss_fixed_dh, 4);
    (CT_rsa_ephemeral_dh_RESERVED, 5); (CT_dss_ephemeral_dh_RESERVED, 6); (CT_fortezza_dms_RESERVED, 20) ].

(** the code of a value is looked up in its table *)
Scheme Equality for alert_level.
Scheme Equality for alert_desc.
Scheme Equality for hash_alg.
Scheme Equality for sig_alg.
Scheme Equality for compression.
Scheme Equality for named_curve.
Scheme Equality for point_format.
Scheme Equality for cert_type.
Definition code_in {A} (eqb : A -> A -> bool) (tbl : list (A * Z)) (a : A) : Z :=
  match find (fun p => eqb (fst p) a) tbl with Some p => snd p | None => -1 end.
Definition rfc_alert_level := code_in alert_level_beq sp_alert_level.
Definition rfc_alert_desc := code_in alert_desc_beq sp_alert_desc.
Definition rfc_hash_alg := code_in hash_alg_beq sp_hash_alg.
Definition rfc_sig_alg := code_in sig_alg_beq sp_sig_alg.
Definition rfc_compression := code_in compression_beq sp_compression.
Definition rfc_named_curve := code_in named_curve_beq sp_named_curve.
Definition rfc_point_format := code_in point_format_beq sp_point_format.
Definition rfc_cert_type := code_in cert_type_beq sp_cert_type.

(** ** Layouts *)
Definition e_alert (a : alert) : bytes := [z2b (rfc_alert_level (al_level a)); z2b (rfc_alert_desc (al_desc a))].
Definition e_sig_hash (s : sig_hash) : bytes := [z2b (rfc_hash_alg (sh_hash s)); z2b (rfc_sig_alg (sh_sig s))].
Definition e_sig_hashes (l : list sig_hash) : bytes := sp_vec 2 (concat (map e_sig_hash l)).
Definition e_curve (c : named_curve) : bytes := be 2 (rfc_named_curve c).
Definition e_format (f : point_format) : bytes := [z2b (rfc_point_format f)].
Definition e_digitally_signed (d : digitally_signed) : bytes := e_sig_hash (ds_alg d) ++ sp_vec 2 (ds_sig d).
Definition e_suite (c : cipher_suite) : bytes :=
  match c with TLS_ECDHE_RSA_WITH_CHACHA20_POLY1305_SHA256 => [xcc; xa8] | UnknownCipherSuite => [] end.
Definition e_comp (c : compression) : bytes := [z2b (rfc_compression c)].
Definition e_version (v : version) : bytes := [v_major v; v_minor v].

(** [struct { ExtensionType extension_type; opaque extension_data<0..2^16-1>; } Extension] *)
Definition e_ext_data (e : extension) : bytes :=
  match e with
  | elliptic_curves l => sp_vec 2 (concat (map e_curve l))
  | ec_point_formats l => sp_vec 1 (concat (map e_format l))
  | signature_algorithms l => e_sig_hashes l
  | ext_unknown _ d => d
  end.
Definition e_ext_type (e : extension) : Z :=
  match e with
  | elliptic_curves _ => 10 | ec_point_formats _ => 11 | signature_algorithms _ => 13
  | ext_unknown ty _ => ty
  end.
Definition e_ext (e : extension) : bytes := be 2 (e_ext_type e) ++ sp_vec 2 (e_ext_data e).
Definition e_ext_vec (l : list extension) : bytes := sp_vec 2 (concat (map e_ext l)).
(** the extension block may be absent altogether *)
Definition e_exts (o : option (list extension)) : bytes :=
  match o with None => [] | Some l => e_ext_vec l end.

Definition e_client_hello (h : client_hello) : bytes :=
  e_version (ch_version h) ++ ch_random h ++ sp_vec 1 (ch_session h) ++
  sp_vec 2 (concat (map e_suite (ch_suites h))) ++ sp_vec 1 (concat (map e_comp (ch_comps h))) ++
  e_exts (ch_exts h).
Definition e_server_hello (h : server_hello) : bytes :=
  e_version (sh_version h) ++ sh_random h ++ sp_vec 1 (sh_session h) ++
  e_suite (sh_suite h) ++ e_comp (sh_comp h) ++ e_exts (sh_exts h).
Definition e_cert_list (l : list bytes) : bytes := sp_vec 3 (concat (map (sp_vec 3) l)).
Definition e_cert_type (c : cert_type) : bytes := [z2b (rfc_cert_type c)].
Definition e_cert_request (r : cert_request) : bytes :=
  sp_vec 1 (concat (map e_cert_type (cr_types r))) ++ e_sig_hashes (cr_algs r) ++
  sp_vec 2 (concat (map (sp_vec 2) (cr_cas r))).

(** [struct { HandshakeType msg_type; uint24 length; select (HandshakeType) ... body; } Handshake] *)
Definition hs_type (h : handshake) : Z :=
  match h with
  | hello_request => 0 | client_hello_msg _ => 1 | server_hello_msg _ => 2 | certificate _ => 11
  | server_key_exchange _ => 12 | certificate_request _ => 13 | server_hello_done => 14
  | client_key_exchange _ => 16 | finished _ => 20
  end.
Definition e_hs_body (h : handshake) : bytes :=
  match h with
  | hello_request | server_hello_done => []
  | client_hello_msg b => e_client_hello b
  | server_hello_msg b => e_server_hello b
  | certificate b => e_cert_list b
  | server_key_exchange b | client_key_exchange b | finished b => b
  | certificate_request b => e_cert_request b
  end.
Definition e_handshake (h : handshake) : bytes := [z2b (hs_type h)] ++ sp_vec 3 (e_hs_body h).

(** [ServerKeyExchange] for ECDHE (RFC 4492 5.4): curve type 3, named curve, point, signature *)
Definition e_ske (k : ske) : bytes :=
  ([x03] ++ e_curve (ske_curve k) ++ sp_vec 1 (ske_public k)) ++ e_digitally_signed (ske_signed k).

(** ** Well-formedness: the values the presentation language allows, plus the limits of the length fields *)
Definition wf_digitally_signed (d : digitally_signed) : Prop := in_range 0 (zlen (ds_sig d)) 65535.
Definition wf_suite (c : cipher_suite) : Prop := c <> UnknownCipherSuite.
Definition wf_ext (e : extension) : Prop :=
  match e with
  | elliptic_curves l => in_range 1 (2 * zlen l) 65535
  | ec_point_formats l => in_range 1 (zlen l) 255
  | signature_algorithms l => in_range 2 (2 * zlen l) 65534
  | ext_unknown ty d => in_range 0 ty 65535 /\ ty <> 10 /\ ty <> 11 /\ ty <> 13
  end /\ zlen (e_ext_data e) <= 65535.
Definition wf_exts (o : option (list extension)) : Prop :=
  match o with
  | None => True
  | Some l => Forall wf_ext l /\ zlen (concat (map e_ext l)) <= 65535
  end.
Definition wf_client_hello (h : client_hello) : Prop :=
  length (ch_random h) = 32%nat /\ zlen (ch_session h) <= 32 /\
  (Forall wf_suite (ch_suites h) /\ in_range 2 (2 * zlen (ch_suites h)) 65534) /\
  in_range 1 (zlen (ch_comps h)) 255 /\ wf_exts (ch_exts h).
(** everything but the suite being one the crate can name *)
Definition wf_server_hello' (h : server_hello) : Prop :=
  length (sh_random h) = 32%nat /\ zlen (sh_session h) <= 32 /\ wf_exts (sh_exts h).
Definition wf_server_hello (h : server_hello) : Prop :=
  wf_server_hello' h /\ wf_suite (sh_suite h).
Definition wf_cert_list (l : list bytes) : Prop :=
  Forall (fun c => in_range 1 (zlen c) (2 ^ 24 - 1)) l /\
  zlen (concat (map (sp_vec 3) l)) <= 2 ^ 24 - 1.
Definition wf_cert_request (r : cert_request) : Prop :=
  in_range 1 (zlen (cr_types r)) 255 /\ in_range 2 (2 * zlen (cr_algs r)) 65534 /\
  Forall (fun c => in_range 1 (zlen c) 65535) (cr_cas r) /\
  zlen (concat (map (sp_vec 2) (cr_cas r))) <= 65535.
Definition wf_hs_body (h : handshake) : Prop :=
  match h with
  | hello_request | server_hello_done | server_key_exchange _ | client_key_exchange _ => True
  | client_hello_msg b => wf_client_hello b
  | server_hello_msg b => wf_server_hello b
  | certificate b => wf_cert_list b
  | certificate_request b => wf_cert_request b
  | finished b => length b = 12%nat
  end.
Definition wf_handshake (h : handshake) : Prop := wf_hs_body h /\ zlen (e_hs_body h) < 2 ^ 24.
Definition wf_ske (k : ske) : Prop :=
  in_range 1 (zlen (ske_public k)) 255 /\ wf_digitally_signed (ske_signed k).

(** ** Shapes of the codec properties *)
Definition anything {A} (_ : A) : Prop := True.

(** what is written can be read back in front of anything, and nothing more is consumed *)
Definition roundtrips {A} (I : item A) (wf : A -> Prop) : Prop :=
  forall v rest, wf v -> exists w, tls_write I v = Ok w /\ tls_read I (w ++ rest) = Ok (v, rest).
(** the same for items that extend to the end of their container *)
Definition roundtrips_last {A} (I : item A) (wf : A -> Prop) : Prop :=
  forall v, wf v -> exists w, tls_write I v = Ok w /\ tls_read I w = Ok (v, []).
Definition written_as {A} (I : item A) (wf : A -> Prop) (enc : A -> bytes) : Prop :=
  forall v, wf v -> tls_write I v = Ok (enc v).
Definition size_exact {A} (I : item A) (inv : A -> Prop) : Prop :=
  forall v w, inv v -> tls_write I v = Ok w -> tls_size I v = zlen w.
(** no panic, no divergence, and what is left is a suffix of the input *)
Definition total_parser {A} (I : item A) : Prop :=
  forall bs, match tls_read I bs with
             | Ok (_, rest) => exists w, bs = w ++ rest
             | Err _ => True
             | Panic | Diverge => False
             end.
(** serialised size of a list of elements of size [sz] *)
Definition total {A} (sz : A -> Z) (l : list A) : Z := fold_right Z.add 0 (map sz l).
Definition bounded {A} (I : item A) (mn mx : Z) (sz : A -> Z) : Prop :=
  (forall l, in_range mn (total sz l) mx -> vec_new I mn mx l = Ok l) /\
  (forall l, ~ in_range mn (total sz l) mx -> vec_new I mn mx l = Err DecodeError) /\
  (forall bs l rest, tls_read (i_vec I mn mx) bs = Ok (l, rest) -> in_range mn (total sz l) mx).
(** a vector body of well-formed elements whose total size is outside the bounds is refused *)
Definition refuses_outside {A} (I : item A) (w : nat) (mn mx : Z) (wf : A -> Prop) (enc : A -> bytes) : Prop :=
  forall l rest, Forall wf l -> zlen (concat (map enc l)) < 256 ^ Z.of_nat w ->
    ~ in_range mn (zlen (concat (map enc l))) mx ->
    tls_read (i_vec I mn mx) (sp_vec w (concat (map enc l)) ++ rest) = Err DecodeError.
Definition decodes_exactly {A} (I : item A) (w : nat) (tbl : list (A * Z)) : Prop :=
  forall n rest, 0 <= n < 256 ^ Z.of_nat w ->
    (forall a, In (a, n) tbl -> tls_read I (be w n ++ rest) = Ok (a, rest)) /\
    ((forall a, ~ In (a, n) tbl) -> tls_read I (be w n ++ rest) = Err DecodeError).
Definition known_hs_types : list Z := [0; 1; 2; 11; 12; 13; 14; 16; 20].
(** one complete message at the head of the buffer: any type byte, 24-bit length, body *)
Definition frame (ty : byte) (body : bytes) : bytes := [ty] ++ sp_vec 3 body.
