(** Model of src/tls_item.rs, src/macros.rs, src/signature.rs, src/alert.rs (wire types),
    src/handshake.rs, the [CipherSuite] codec of src/cipher/mod.rs and the wire types of
    src/cipher/ecdhe.rs.

    Every codec in the crate runs on an in-memory reader ([&[u8]] or [Cursor]) and writes into a [Vec],
    so reading is a function from the remaining bytes to a value and the bytes left, and writing
    returns the bytes appended.  On error the remaining input / partial output is dropped, as in the
    crate (every caller abandons reader or Vec).  [u64] size sums are unbounded integers: they are sums
    of in-memory lengths and cannot reach 2^64. *)
From Verif Require Export M_Util.

(** src/tls_item.rs:15-24 [trait TlsItem] *)
Record item (A : Type) := Item {
  tls_write : A -> res bytes;
  tls_read  : bytes -> res (A * bytes);
  tls_size  : A -> Z }.
Arguments Item {A}. Arguments tls_write {A}. Arguments tls_read {A}. Arguments tls_size {A}.

(** src/util.rs:107-112 [read_exact] on a slice reader (a slice never errors, so the only failure is
    end of input, which becomes [IoFailure] through [From<io::Error>], src/tls_result.rs:56-63) *)
Definition read_n (n : nat) (bs : bytes) : res (bytes * bytes) :=
  if (n <=? length bs)%nat then Ok (firstn n bs, skipn n bs) else Err IoFailure.

(** src/macros.rs:38-57 [try_read_num!] for u8, u16, u24, u32, u64 ([w] bytes) *)
Definition rd_num (w : nat) (bs : bytes) : res (Z * bytes) :=
  let* (x, r) := read_n w bs in Ok (be_val x, r).

(** src/macros.rs:15-36 [try_write_num!]: [$e as uN] truncates, as [be] does *)
Definition wr_num (w : nat) (z : Z) : bytes := be w z.

(** src/tls_item.rs:27-50 [tls_primitive!] *)
Definition i_u8 : item byte :=
  Item (fun b => Ok [b])
       (fun bs => let* (x, r) := rd_num 1 bs in Ok (z2b x, r))
       (fun _ => 1).
(** src/tls_item.rs:27-50 [tls_primitive!] for the wider types *)
Definition i_num (w : nat) : item Z :=
  Item (fun z => Ok (wr_num w z)) (rd_num w) (fun _ => Z.of_nat w).
(** src/tls_item.rs:48 *)
Definition i_u16 := i_num 2.
(** src/tls_item.rs:49 *)
Definition i_u32 := i_num 4.
(** src/tls_item.rs:50 *)
Definition i_u64 := i_num 8.

(** src/tls_item.rs:52-98 [tls_struct!]: fields in order.  A struct is modelled as nested pairs
    ([i_pair]) converted to a record ([i_map]). *)
Definition i_pair {A B} (IA : item A) (IB : item B) : item (A * B) :=
  Item (fun p => let* x := tls_write IA (fst p) in
                 let* y := tls_write IB (snd p) in Ok (x ++ y))
       (fun bs => let* (a, r) := tls_read IA bs in
                  let* (b, r') := tls_read IB r in Ok ((a, b), r'))
       (fun p => tls_size IA (fst p) + tls_size IB (snd p)).
(** src/tls_item.rs:52-98: the struct itself *)
Definition i_map {A B} (f : A -> B) (g : B -> A) (IA : item A) : item B :=
  Item (fun b => tls_write IA (g b))
       (fun bs => let* (a, r) := tls_read IA bs in Ok (f a, r))
       (fun b => tls_size IA (g b)).

(** [num::traits::FromPrimitive::from_u64] (called at src/tls_item.rs:100-142) generated by [enum_from_primitive!]: the variant with that code *)
Definition from_code {A} (code : A -> Z) (all : list A) (n : Z) : option A :=
  find (fun a => code a =? n) all.

(** src/tls_item.rs:100-142 [tls_enum!] *)
Definition i_enum {A} (w : nat) (code : A -> Z) (all : list A) : item A :=
  Item (fun a => Ok (wr_num w (code a)))
       (fun bs => let* (n, r) := rd_num w bs in
                  match from_code code all n with
                  | Some a => Ok (a, r)
                  | None => Err DecodeError
                  end)
       (fun _ => Z.of_nat w).

(** src/tls_item.rs:145-189 [tls_array!] *)
Definition array_new (n : nat) (v : bytes) : res bytes :=
  if (length v =? n)%nat then Ok v else Err InternalError.
(** src/tls_item.rs:166-180 *)
Definition i_array (n : nat) : item bytes :=
  Item (fun v => Ok v) (read_n n) (fun _ => Z.of_nat n).

(** src/tls_item.rs:191-325 [tls_vec!] *)
Definition data_size {A} (I : item A) (v : list A) : Z :=
  fold_right (fun a s => tls_size I a + s) 0 v.

(** lines 196-221 *)
Definition vec_new {A} (I : item A) (mn mx : Z) (v : list A) : res (list A) :=
  let size := data_size I v in
  if size <? mn then Err DecodeError
  else if mx <? size then Err DecodeError
  else Ok v.

(** lines 243-253, 265-275, 301-311: width of the length prefix *)
Definition vec_width (mx : Z) : nat :=
  if mx <? 2 ^ 8 then 1 else if mx <? 2 ^ 16 then 2 else if mx <? 2 ^ 24 then 3
  else if mx <? 2 ^ 32 then 4 else 8.

(** lines 255-257 *)
Fixpoint write_items {A} (I : item A) (v : list A) : res bytes :=
  match v with
  | [] => Ok []
  | a :: v' => let* x := tls_write I a in let* y := write_items I v' in Ok (x ++ y)
  end.

(** lines 277-283, the [while] loop; the fuel (one more than the input bytes) is proved sufficient in [P_Codec.v] *)
Fixpoint read_items {A} (I : item A) (fuel : nat) (items_size self_size : Z) (bs : bytes)
  : res ((list A * Z) * bytes) :=
  if items_size <? self_size then
    match fuel with
    | O => Diverge
    | S f =>
        let* (a, r) := tls_read I bs in
        let* (ls, r') := read_items I f (items_size + tls_size I a) self_size r in
        Ok ((a :: fst ls, snd ls), r')
    end
  else Ok (([], items_size), bs).

(** src/tls_item.rs:237-316: [tls_write], [tls_read], [tls_size] *)
Definition i_vec {A} (I : item A) (mn mx : Z) : item (list A) :=
  Item (fun v => let* body := write_items I v in
                 Ok (wr_num (vec_width mx) (data_size I v) ++ body))
       (fun bs => let* (self_size, r) := rd_num (vec_width mx) bs in
                  let* (ls, r') := read_items I (S (length r)) 0 self_size r in
                  if negb (snd ls =? self_size) then Err DecodeError
                  else let* v := vec_new I mn mx (fst ls) in Ok (v, r'))
       (fun v => Z.of_nat (vec_width mx) + data_size I v).

(** src/tls_item.rs:328-361 [tls_option!]: reads to the end; bytes after the inner value are dropped *)
Definition i_option {A} (I : item A) : item (option A) :=
  Item (fun o => match o with Some a => tls_write I a | None => Ok [] end)
       (fun bs => match bs with
                  | [] => Ok (None, [])
                  | _ => let* (a, _) := tls_read I bs in Ok (Some a, [])
                  end)
       (fun o => match o with Some a => tls_size I a | None => 0 end).

(** src/tls_item.rs:364-376 [DummyItem] *)
Definition i_dummy : item unit := Item (fun _ => Ok []) (fun bs => Ok (tt, bs)) (fun _ => 0).

(** src/tls_item.rs:380-397 [ObscureData] *)
Definition i_obscure : item bytes := Item (fun v => Ok v) (fun bs => Ok (bs, [])) (fun v => zlen v).

(** ** Enumerations *)

(** src/alert.rs:6-9 *)
Inductive alert_level := AL_warning | AL_fatal.
(** src/alert.rs:6-9 *)
Definition alert_level_code a : Z := match a with AL_warning => 1 | AL_fatal => 2 end.
(** src/alert.rs:6-9 *)
Definition alert_level_all := [AL_warning; AL_fatal].
(** src/alert.rs:6 ([u8]) *)
Definition i_alert_level := i_enum 1 alert_level_code alert_level_all.

(** src/alert.rs:13-46 *)
Inductive alert_desc :=
| AD_close_notify | AD_unexpected_message | AD_bad_record_mac | AD_decryption_failed_RESERVED
| AD_record_overflow | AD_decompression_failure | AD_handshake_failure | AD_no_certificate_RESERVED
| AD_bad_certificate | AD_unsupported_certificate | AD_certificate_revoked | AD_certificate_expired
| AD_certificate_unknown | AD_illegal_parameter | AD_unknown_ca | AD_access_denied | AD_decode_error
| AD_decrypt_error | AD_export_restriction_RESERVED | AD_protocol_version | AD_insufficient_security
| AD_internal_error | AD_user_canceled | AD_no_renegotiation | AD_unsupported_extension
| AD_certificate_unobtainable | AD_unrecognized_name | AD_bad_certificate_status_response
| AD_bad_certificate_hash_value.
(** src/alert.rs:15-45 *)
Definition alert_desc_code a : Z :=
  match a with
  | AD_close_notify => 0 | AD_unexpected_message => 10 | AD_bad_record_mac => 20
  | AD_decryption_failed_RESERVED => 21 | AD_record_overflow => 22 | AD_decompression_failure => 30
  | AD_handshake_failure => 40 | AD_no_certificate_RESERVED => 41 | AD_bad_certificate => 42
  | AD_unsupported_certificate => 43 | AD_certificate_revoked => 44 | AD_certificate_expired => 45
  | AD_certificate_unknown => 46 | AD_illegal_parameter => 47 | AD_unknown_ca => 48
  | AD_access_denied => 49 | AD_decode_error => 50 | AD_decrypt_error => 51
  | AD_export_restriction_RESERVED => 60 | AD_protocol_version => 70 | AD_insufficient_security => 71
  | AD_internal_error => 80 | AD_user_canceled => 90 | AD_no_renegotiation => 100
  | AD_unsupported_extension => 110 | AD_certificate_unobtainable => 111 | AD_unrecognized_name => 112
  | AD_bad_certificate_status_response => 113 | AD_bad_certificate_hash_value => 114
  end.
(** src/alert.rs:15-45 *)
Definition alert_desc_all :=
  [ AD_close_notify; AD_unexpected_message; AD_bad_record_mac; AD_decryption_failed_RESERVED;
    AD_record_overflow; AD_decompression_failure; AD_handshake_failure; AD_no_certificate_RESERVED;
    AD_bad_certificate; AD_unsupported_certificate; AD_certificate_revoked; AD_certificate_expired;
    AD_certificate_unknown; AD_illegal_parameter; AD_unknown_ca; AD_access_denied; AD_decode_error;
    AD_decrypt_error; AD_export_restriction_RESERVED; AD_protocol_version; AD_insufficient_security;
    AD_internal_error; AD_user_canceled; AD_no_renegotiation; AD_unsupported_extension;
    AD_certificate_unobtainable; AD_unrecognized_name; AD_bad_certificate_status_response;
    AD_bad_certificate_hash_value ].
(** src/alert.rs:13 ([u8]) *)
Definition i_alert_desc := i_enum 1 alert_desc_code alert_desc_all.

(** src/alert.rs:66-71 *)
Record alert := Alert { al_level : alert_level; al_desc : alert_desc }.
(** src/alert.rs:66-71 *)
Definition i_alert : item alert :=
  i_map (fun p => Alert (fst p) (snd p)) (fun a => (al_level a, al_desc a)) (i_pair i_alert_level i_alert_desc).

(** src/alert.rs:48-64 [AlertDescription::from_err] *)
Definition alert_from_err (k : errkind) : alert_desc :=
  match k with
  | UnexpectedMessage => AD_unexpected_message | BadRecordMac => AD_bad_record_mac
  | RecordOverflow => AD_record_overflow | IllegalParameter => AD_illegal_parameter
  | DecodeError => AD_decode_error | DecryptError => AD_decrypt_error
  | InternalError => AD_internal_error | IoFailure => AD_internal_error
  | AlertReceived => AD_close_notify
  end.

(** src/signature.rs:6-9 *)
Inductive hash_alg := H_none | H_md5 | H_sha1 | H_sha224 | H_sha256 | H_sha384 | H_sha512.
(** src/signature.rs:6-9 *)
Definition hash_alg_code a : Z :=
  match a with H_none => 0 | H_md5 => 1 | H_sha1 => 2 | H_sha224 => 3 | H_sha256 => 4 | H_sha384 => 5 | H_sha512 => 6 end.
(** src/signature.rs:6-9 *)
Definition hash_alg_all := [H_none; H_md5; H_sha1; H_sha224; H_sha256; H_sha384; H_sha512].
(** src/signature.rs:6 ([u8]) *)
Definition i_hash_alg := i_enum 1 hash_alg_code hash_alg_all.

(** src/signature.rs:11-13 *)
Inductive sig_alg := S_anonymous | S_rsa | S_dsa | S_ecdsa.
(** src/signature.rs:11-13 *)
Definition sig_alg_code a : Z := match a with S_anonymous => 0 | S_rsa => 1 | S_dsa => 2 | S_ecdsa => 3 end.
(** src/signature.rs:11-13 *)
Definition sig_alg_all := [S_anonymous; S_rsa; S_dsa; S_ecdsa].
(** src/signature.rs:11 ([u8]) *)
Definition i_sig_alg := i_enum 1 sig_alg_code sig_alg_all.

(** src/signature.rs:15-21 *)
Record sig_hash := SigHash { sh_hash : hash_alg; sh_sig : sig_alg }.
(** src/signature.rs:15-20 *)
Definition i_sig_hash : item sig_hash :=
  i_map (fun p => SigHash (fst p) (snd p)) (fun a => (sh_hash a, sh_sig a)) (i_pair i_hash_alg i_sig_alg).
(** src/signature.rs:21 *)
Definition i_sig_hash_vec := i_vec i_sig_hash 2 (2 ^ 16 - 2).

(** src/signature.rs:23-29 *)
Definition i_signature := i_vec i_u8 0 (2 ^ 16 - 1).
(** src/signature.rs:24-29 *)
Record digitally_signed := DigSigned { ds_alg : sig_hash; ds_sig : bytes }.
(** src/signature.rs:24-29 *)
Definition i_digitally_signed : item digitally_signed :=
  i_map (fun p => DigSigned (fst p) (snd p)) (fun a => (ds_alg a, ds_sig a)) (i_pair i_sig_hash i_signature).

(** ** src/cipher/mod.rs:39-115 [CipherSuite] *)
Inductive cipher_suite := TLS_ECDHE_RSA_WITH_CHACHA20_POLY1305_SHA256 | UnknownCipherSuite.
(** src/cipher/mod.rs:75-103 and 108-115 *)
Definition i_cipher_suite : item cipher_suite :=
  Item (fun c => match c with
                 | TLS_ECDHE_RSA_WITH_CHACHA20_POLY1305_SHA256 => Ok [xcc; xa8]
                 | UnknownCipherSuite => Err UnexpectedMessage
                 end)
       (fun bs => let* (id1, r) := rd_num 1 bs in
                  let* (id2, r') := rd_num 1 r in
                  if (id1 =? 204) && (id2 =? 168)
                  then Ok (TLS_ECDHE_RSA_WITH_CHACHA20_POLY1305_SHA256, r')
                  else Ok (UnknownCipherSuite, r'))
       (fun _ => 2).

(** ** src/handshake.rs *)

(** src/handshake.rs:14 *)
Definition i_random := i_array 32.
(** src/handshake.rs:16 *)
Definition i_cipher_suite_vec := i_vec i_cipher_suite 2 (2 ^ 16 - 2).
(** src/handshake.rs:18-22 *)
Inductive compression := CM_null | CM_deflate.
(** src/handshake.rs:18-21 *)
Definition compression_code a : Z := match a with CM_null => 0 | CM_deflate => 1 end.
(** src/handshake.rs:18-21 *)
Definition compression_all := [CM_null; CM_deflate].
(** src/handshake.rs:18 ([u8]) *)
Definition i_compression := i_enum 1 compression_code compression_all.
(** src/handshake.rs:22 *)
Definition i_compression_vec := i_vec i_compression 1 (2 ^ 8 - 1).
(** src/handshake.rs:24-29 *)
Record version := Version { v_major : byte; v_minor : byte }.
(** src/handshake.rs:24-29 *)
Definition i_version : item version :=
  i_map (fun p => Version (fst p) (snd p)) (fun v => (v_major v, v_minor v)) (i_pair i_u8 i_u8).
(** src/handshake.rs:31 *)
Definition i_session_id := i_vec i_u8 0 32.
(** src/handshake.rs:33 *)
Definition i_asn1_cert := i_vec i_u8 1 (2 ^ 24 - 1).
(** src/handshake.rs:37-50 *)
Inductive named_curve :=
| sect163k1 | sect163r1 | sect163r2 | sect193r1 | sect193r2 | sect233k1 | sect233r1 | sect239k1
| sect283k1 | sect283r1 | sect409k1 | sect409r1 | sect571k1 | sect571r1 | secp160k1 | secp160r1
| secp160r2 | secp192k1 | secp192r1 | secp224k1 | secp224r1 | secp256k1 | secp256r1 | secp384r1
| secp521r1 | arbitrary_explicit_prime_curves | arbitrary_explicit_char2_curves.
(** src/handshake.rs:38-48 *)
Definition named_curve_code a : Z :=
  match a with
  | sect163k1 => 1 | sect163r1 => 2 | sect163r2 => 3 | sect193r1 => 4 | sect193r2 => 5 | sect233k1 => 6
  | sect233r1 => 7 | sect239k1 => 8 | sect283k1 => 9 | sect283r1 => 10 | sect409k1 => 11 | sect409r1 => 12
  | sect571k1 => 13 | sect571r1 => 14 | secp160k1 => 15 | secp160r1 => 16 | secp160r2 => 17
  | secp192k1 => 18 | secp192r1 => 19 | secp224k1 => 20 | secp224r1 => 21 | secp256k1 => 22
  | secp256r1 => 23 | secp384r1 => 24 | secp521r1 => 25
  | arbitrary_explicit_prime_curves => 65281 | arbitrary_explicit_char2_curves => 65282
  end.
(** src/handshake.rs:38-48 *)
Definition named_curve_all :=
  [ sect163k1; sect163r1; sect163r2; sect193r1; sect193r2; sect233k1; sect233r1; sect239k1;
    sect283k1; sect283r1; sect409k1; sect409r1; sect571k1; sect571r1; secp160k1; secp160r1;
    secp160r2; secp192k1; secp192r1; secp224k1; secp224r1; secp256k1; secp256r1; secp384r1;
    secp521r1; arbitrary_explicit_prime_curves; arbitrary_explicit_char2_curves ].
(** src/handshake.rs:37 ([u16]) *)
Definition i_named_curve := i_enum 2 named_curve_code named_curve_all.
(** src/handshake.rs:50 *)
Definition i_curve_list := i_vec i_named_curve 1 (2 ^ 16 - 1).
(** src/handshake.rs:52-56 *)
Inductive point_format := PF_uncompressed | PF_compressed_prime | PF_compressed_char2.
(** src/handshake.rs:52-55 *)
Definition point_format_code a : Z :=
  match a with PF_uncompressed => 0 | PF_compressed_prime => 1 | PF_compressed_char2 => 2 end.
(** src/handshake.rs:52-55 *)
Definition point_format_all := [PF_uncompressed; PF_compressed_prime; PF_compressed_char2].
(** src/handshake.rs:52 ([u8]) *)
Definition i_point_format := i_enum 1 point_format_code point_format_all.
(** src/handshake.rs:56 *)
Definition i_point_format_list := i_vec i_point_format 1 (2 ^ 8 - 1).

(** src/handshake.rs:73-158 [tls_hello_extension!] *)
Inductive extension :=
| elliptic_curves (l : list named_curve)
| ec_point_formats (l : list point_format)
| signature_algorithms (l : list sig_hash)
| ext_unknown (ty : Z) (data : bytes).

(** src/handshake.rs:91-107 *)
Definition ext_write_body {A} (num : Z) (I : item A) (b : A) : res bytes :=
  let* body := tls_write I b in
  Ok (wr_num 2 num ++ wr_num 2 (tls_size I b) ++ body).
(** src/handshake.rs:91-107, with the types and numbers of 144-158 *)
Definition ext_write (e : extension) : res bytes :=
  match e with
  | elliptic_curves l => ext_write_body 10 i_curve_list l
  | ec_point_formats l => ext_write_body 11 i_point_format_list l
  | signature_algorithms l => ext_write_body 13 i_sig_hash_vec l
  | ext_unknown ty d => Ok (wr_num 2 ty ++ wr_num 2 (zlen d) ++ d)
  end.
(** src/handshake.rs:114-121 *)
Definition ext_read_body {A} (I : item A) (mk : A -> extension) (size : Z) (bs : bytes) : res (extension * bytes) :=
  let* (b, r) := tls_read I bs in
  if negb (size =? tls_size I b) then Err DecodeError else Ok (mk b, r).
(** src/handshake.rs:109-128 *)
Definition ext_read (bs : bytes) : res (extension * bytes) :=
  let* (ty, r) := rd_num 2 bs in
  let* (size, r') := rd_num 2 r in
  if ty =? 10 then ext_read_body i_curve_list elliptic_curves size r'
  else if ty =? 11 then ext_read_body i_point_format_list ec_point_formats size r'
  else if ty =? 13 then ext_read_body i_sig_hash_vec signature_algorithms size r'
  else let* (d, r'') := read_n (Z.to_nat size) r' in Ok (ext_unknown ty d, r'').
(** src/handshake.rs:130-139 *)
Definition ext_size (e : extension) : Z :=
  4 + match e with
      | elliptic_curves l => tls_size i_curve_list l
      | ec_point_formats l => tls_size i_point_format_list l
      | signature_algorithms l => tls_size i_sig_hash_vec l
      | ext_unknown _ d => zlen d
      end.
(** src/handshake.rs:90-140 *)
Definition i_extension : item extension := Item ext_write ext_read ext_size.

(** src/handshake.rs:160-180 *)
Definition new_elliptic_curve_list (l : list named_curve) : res extension :=
  let* l := vec_new i_named_curve 1 (2 ^ 16 - 1) l in Ok (elliptic_curves l).
(** src/handshake.rs:167-171 *)
Definition new_ec_point_formats (l : list point_format) : res extension :=
  let* l := vec_new i_point_format 1 (2 ^ 8 - 1) l in Ok (ec_point_formats l).
(** src/handshake.rs:173-179 *)
Definition new_signature_algorithm_list (l : list sig_hash) : res extension :=
  let* l := vec_new i_sig_hash 2 (2 ^ 16 - 2) l in Ok (signature_algorithms l).

(** src/handshake.rs:182-183 *)
Definition i_extension_vec := i_vec i_extension 0 (2 ^ 16 - 1).
(** src/handshake.rs:183 *)
Definition i_extensions := i_option i_extension_vec.

(** src/handshake.rs:283-303 *)
Record client_hello := ClientHello {
  ch_version : version; ch_random : bytes; ch_session : bytes;
  ch_suites : list cipher_suite; ch_comps : list compression; ch_exts : option (list extension) }.
(** src/handshake.rs:283-292 *)
Definition i_client_hello : item client_hello :=
  i_map (fun '(v, (r, (s, (c, (m, e))))) => ClientHello v r s c m e)
        (fun h => (ch_version h, (ch_random h, (ch_session h, (ch_suites h, (ch_comps h, ch_exts h))))))
        (i_pair i_version (i_pair i_random (i_pair i_session_id
          (i_pair i_cipher_suite_vec (i_pair i_compression_vec i_extensions))))).

(** src/handshake.rs:294-303 *)
Record server_hello := ServerHello {
  sh_version : version; sh_random : bytes; sh_session : bytes;
  sh_suite : cipher_suite; sh_comp : compression; sh_exts : option (list extension) }.
(** src/handshake.rs:294-303 *)
Definition i_server_hello : item server_hello :=
  i_map (fun '(v, (r, (s, (c, (m, e))))) => ServerHello v r s c m e)
        (fun h => (sh_version h, (sh_random h, (sh_session h, (sh_suite h, (sh_comp h, sh_exts h))))))
        (i_pair i_version (i_pair i_random (i_pair i_session_id
          (i_pair i_cipher_suite (i_pair i_compression i_extensions))))).

(** src/handshake.rs:305 *)
Definition i_certificate_list := i_vec i_asn1_cert 0 (2 ^ 24 - 1).

(** src/handshake.rs:307-323 *)
Inductive cert_type :=
| CT_rsa_sign | CT_dss_sign | CT_rsa_fixed_dh | CT_dss_fixed_dh
| CT_rsa_ephemeral_dh_RESERVED | CT_dss_ephemeral_dh_RESERVED | CT_fortezza_dms_RESERVED.
(** src/handshake.rs:307-311 *)
Definition cert_type_code a : Z :=
  match a with
  | CT_rsa_sign => 1 | CT_dss_sign => 2 | CT_rsa_fixed_dh => 3 | CT_dss_fixed_dh => 4
  | CT_rsa_ephemeral_dh_RESERVED => 5 | CT_dss_ephemeral_dh_RESERVED => 6 | CT_fortezza_dms_RESERVED => 20
  end.
(** src/handshake.rs:307-311 *)
Definition cert_type_all :=
  [ CT_rsa_sign; CT_dss_sign; CT_rsa_fixed_dh; CT_dss_fixed_dh;
    CT_rsa_ephemeral_dh_RESERVED; CT_dss_ephemeral_dh_RESERVED; CT_fortezza_dms_RESERVED ].
(** src/handshake.rs:307 ([u8]) *)
Definition i_cert_type := i_enum 1 cert_type_code cert_type_all.
(** src/handshake.rs:312 *)
Definition i_cert_type_vec := i_vec i_cert_type 1 (2 ^ 8 - 1).
(** src/handshake.rs:314 *)
Definition i_dn := i_vec i_u8 1 (2 ^ 16 - 1).
(** src/handshake.rs:315 *)
Definition i_dn_vec := i_vec i_dn 0 (2 ^ 16 - 1).
(** src/handshake.rs:317-323 *)
Record cert_request := CertRequest {
  cr_types : list cert_type; cr_algs : list sig_hash; cr_cas : list bytes }.
(** src/handshake.rs:317-323 *)
Definition i_cert_request : item cert_request :=
  i_map (fun '(t, (a, c)) => CertRequest t a c)
        (fun r => (cr_types r, (cr_algs r, cr_cas r)))
        (i_pair i_cert_type_vec (i_pair i_sig_hash_vec i_dn_vec)).

(** src/handshake.rs:326 *)
Definition i_verify_data := i_array 12.

(** src/handshake.rs:190-281 [tls_handshake!] *)
Inductive handshake :=
| hello_request
| client_hello_msg (b : client_hello)
| server_hello_msg (b : server_hello)
| certificate (b : list bytes)
| server_key_exchange (b : bytes)
| certificate_request (b : cert_request)
| server_hello_done
| client_key_exchange (b : bytes)
| finished (b : bytes).

(** src/handshake.rs:204-221: the three length bytes are [(len >> 16) & 0xff] etc., i.e. [be 3] *)
Definition hs_write_body {A} (num : Z) (I : item A) (b : A) : res bytes :=
  let* body := tls_write I b in
  Ok (wr_num 1 num ++ wr_num 3 (tls_size I b) ++ body).
(** src/handshake.rs:204-221, with the types and numbers of 268-281 *)
Definition hs_write (h : handshake) : res bytes :=
  match h with
  | hello_request => hs_write_body 0 i_dummy tt
  | client_hello_msg b => hs_write_body 1 i_client_hello b
  | server_hello_msg b => hs_write_body 2 i_server_hello b
  | certificate b => hs_write_body 11 i_certificate_list b
  | server_key_exchange b => hs_write_body 12 i_obscure b
  | certificate_request b => hs_write_body 13 i_cert_request b
  | server_hello_done => hs_write_body 14 i_dummy tt
  | client_key_exchange b => hs_write_body 16 i_obscure b
  | finished b => hs_write_body 20 i_verify_data b
  end.

(** src/handshake.rs:236-239 *)
Definition hs_read_body {A} (I : item A) (mk : A -> handshake) (bs : bytes) : res (handshake * bytes) :=
  let* (b, r) := tls_read I bs in Ok (mk b, r).
(** src/handshake.rs:234-244 *)
Definition hs_read_ty (ty : Z) (bs : bytes) : res (handshake * bytes) :=
  if ty =? 0 then hs_read_body i_dummy (fun _ => hello_request) bs
  else if ty =? 1 then hs_read_body i_client_hello client_hello_msg bs
  else if ty =? 2 then hs_read_body i_server_hello server_hello_msg bs
  else if ty =? 11 then hs_read_body i_certificate_list certificate bs
  else if ty =? 12 then hs_read_body i_obscure server_key_exchange bs
  else if ty =? 13 then hs_read_body i_cert_request certificate_request bs
  else if ty =? 14 then hs_read_body i_dummy (fun _ => server_hello_done) bs
  else if ty =? 16 then hs_read_body i_obscure client_key_exchange bs
  else if ty =? 20 then hs_read_body i_verify_data finished bs
  else Err UnexpectedMessage.
(** src/handshake.rs:223-253: the announced length is read and ignored; a byte left over is [InternalError] *)
Definition hs_read (bs : bytes) : res (handshake * bytes) :=
  let* (ty, r) := rd_num 1 bs in
  let* (n1, r) := rd_num 1 r in
  let* (n2, r) := rd_num 1 r in
  let* (n3, r) := rd_num 1 r in
  let* (h, r) := hs_read_ty ty r in
  match rd_num 1 r with
  | Ok _ => Err InternalError
  | _ => Ok (h, r)
  end.
(** src/handshake.rs:255-263 *)
Definition hs_size (h : handshake) : Z :=
  1 + 3 +
  match h with
  | hello_request => tls_size i_dummy tt
  | client_hello_msg b => tls_size i_client_hello b
  | server_hello_msg b => tls_size i_server_hello b
  | certificate b => tls_size i_certificate_list b
  | server_key_exchange b => tls_size i_obscure b
  | certificate_request b => tls_size i_cert_request b
  | server_hello_done => tls_size i_dummy tt
  | client_key_exchange b => tls_size i_obscure b
  | finished b => tls_size i_verify_data b
  end.
(** src/handshake.rs:203-264 *)
Definition i_handshake : item handshake := Item hs_write hs_read hs_size.

(** src/handshake.rs:329-373 [HandshakeBuffer]; the state is its [buf] field *)
Definition hb_new : bytes := [].
(** src/handshake.rs:338-340 *)
Definition add_record (buf fragment : bytes) : bytes := buf ++ fragment.
(** src/handshake.rs:343-372 *)
Definition get_message (buf : bytes) : res (option handshake) * bytes :=
  let len := zlen buf in
  if len <? 4 then (Ok None, buf)
  else
    let n1 := b2z (nth 1 buf x00) in
    let n2 := b2z (nth 2 buf x00) in
    let n3 := b2z (nth 3 buf x00) in
    let wanted_len := Z.lor (Z.lor (Z.shiftl n1 16) (Z.shiftl n2 8)) n3 in
    let wanted_len := wanted_len + 4 in
    if len <? wanted_len then (Ok None, buf)
    else
      let message := firstn (Z.to_nat wanted_len) buf in
      let remaining := skipn (Z.to_nat wanted_len) buf in
      match hs_read message with
      | Ok (h, _) => (Ok (Some h), remaining)
      | Err k => (Err k, remaining)
      | Panic => (Panic, remaining)
      | Diverge => (Diverge, remaining)
      end.

(** src/handshake.rs:376-430 *)
Definition new_client_hello (random : bytes) (cs : cipher_suite) (exts : list extension) : res handshake :=
  let* session := vec_new i_u8 0 32 [] in
  let* suites := vec_new i_cipher_suite 2 (2 ^ 16 - 2) [cs] in
  let* comps := vec_new i_compression 1 (2 ^ 8 - 1) [CM_null] in
  let* exts := match exts with
               | [] => Ok None
               | _ => let* e := vec_new i_extension 0 (2 ^ 16 - 1) exts in Ok (Some e)
               end in
  Ok (client_hello_msg (ClientHello (Version x03 x03) random session suites comps exts)).
(** src/handshake.rs:422-425 *)
Definition new_client_key_exchange (d : bytes) : res handshake := Ok (client_key_exchange d).
(** src/handshake.rs:427-430 *)
Definition new_finished (d : bytes) : res handshake :=
  let* d := array_new 12 d in Ok (finished d).

(** ** src/cipher/ecdhe.rs:16-116, wire types of ServerKeyExchange *)
Definition i_ec_data := i_vec i_u8 1 (2 ^ 8 - 1).
(** src/cipher/ecdhe.rs:18-23 (not used by the key exchange) *)
Record ec_curve := EcCurve { ecc_a : bytes; ecc_b : bytes }.
(** src/cipher/ecdhe.rs:18-23 *)
Definition i_ec_curve : item ec_curve :=
  i_map (fun p => EcCurve (fst p) (snd p)) (fun c => (ecc_a c, ecc_b c)) (i_pair i_ec_data i_ec_data).
(** src/cipher/ecdhe.rs:37-102 [tls_enum_struct!] with its single variant [named_curve = 3] *)
Definition i_ec_parameters : item named_curve :=
  Item (fun c => let* b := tls_write i_named_curve c in Ok (wr_num 1 3 ++ b))
       (fun bs => let* (n, r) := rd_num 1 bs in
                  if n =? 3 then tls_read i_named_curve r else Err DecodeError)
       (fun c => 1 + tls_size i_named_curve c).
(** src/cipher/ecdhe.rs:104-116 *)
Record ske := Ske { ske_curve : named_curve; ske_public : bytes; ske_signed : digitally_signed }.
(** src/cipher/ecdhe.rs:104-116 *)
Definition i_ske : item ske :=
  i_map (fun '((c, p), s) => Ske c p s) (fun k => ((ske_curve k, ske_public k), ske_signed k))
        (i_pair (i_pair i_ec_parameters i_ec_data) i_digitally_signed).
