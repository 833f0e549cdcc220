(** Model of src/client.rs and of the parts of src/cipher/mod.rs and src/alert.rs it calls.

    Not here: [reader]/[writer] (lines 44-51, handing out the transport; see [Spec_Api]), and the
    texts of errors ([M_Small]).  The error of [Write::write_all] (an [io::Error] wrapping the [TlsError]) is
    represented by the kind of the wrapped error. *)
From Verif Require Export M_Ecdhe M_Aead M_Prf M_Record.

(** src/client.rs:19-24 *)
Record client := Client { c_reader : reader; c_writer : writer; c_rng : rng; c_buf : bytes }.

(** operations on one field of [self]: [self.reader], src/client.rs:20 *)
Definition on_reader {A} (a : M reader A) : M client A := fun c =>
  let (x, r) := a (c_reader c) in (x, Client r (c_writer c) (c_rng c) (c_buf c)).
(** on [self.writer], src/client.rs:21 *)
Definition on_writer {A} (a : M writer A) : M client A := fun c =>
  let (x, w) := a (c_writer c) in (x, Client (c_reader c) w (c_rng c) (c_buf c)).
(** on [self.rng], src/client.rs:22 *)
Definition on_rng {A} (a : M rng A) : M client A := fun c =>
  let (x, g) := a (c_rng c) in (x, Client (c_reader c) (c_writer c) g (c_buf c)).

(** ASCII literals of src/client.rs:141, 153, 201, 231 *)
Definition s_master_secret : bytes := [x6d; x61; x73; x74; x65; x72; x20; x73; x65; x63; x72; x65; x74].
(** src/client.rs:153 "key expansion" *)
Definition s_key_expansion : bytes := [x6b; x65; x79; x20; x65; x78; x70; x61; x6e; x73; x69; x6f; x6e].
(** src/client.rs:201 "client finished" *)
Definition s_client_finished : bytes := [x63; x6c; x69; x65; x6e; x74; x20; x66; x69; x6e; x69; x73; x68; x65; x64].
(** src/client.rs:231 "server finished" *)
Definition s_server_finished : bytes := [x73; x65; x72; x76; x65; x72; x20; x66; x69; x6e; x69; x73; x68; x65; x64].

(** src/cipher/mod.rs:72 [verify_data_len] *)
Definition verify_data_len : nat := 12.
(** src/cipher/mod.rs:44 derived [PartialEq] *)
Definition suite_eqb (a b : cipher_suite) : bool :=
  match a, b with
  | TLS_ECDHE_RSA_WITH_CHACHA20_POLY1305_SHA256, TLS_ECDHE_RSA_WITH_CHACHA20_POLY1305_SHA256
  | UnknownCipherSuite, UnknownCipherSuite => true
  | _, _ => false
  end.
(** src/handshake.rs [CompressionMethod] derived [PartialEq] *)
Definition comp_eqb (a b : compression) : bool :=
  match a, b with CM_null, CM_null | CM_deflate, CM_deflate => true | _, _ => false end.

(** src/client.rs:56-63: the [expect!] macro at its five uses (93, 124, 128, 132, 218) *)
Definition expect {A} (m : mode) (pick : handshake -> option A) : M client A :=
  do* h := on_reader (read_handshake m) in
  match pick h with
  | Some a => mret a
  | None => mfail (Err UnexpectedMessage)
  end.
(** src/client.rs:93 *)
Definition pick_server_hello h := match h with server_hello_msg d => Some d | _ => None end.
(** src/client.rs:124 *)
Definition pick_certificate h := match h with certificate d => Some d | _ => None end.
(** src/client.rs:128 *)
Definition pick_server_key_exchange h := match h with server_key_exchange d => Some d | _ => None end.
(** src/client.rs:132 *)
Definition pick_server_hello_done h := match h with server_hello_done => Some tt | _ => None end.
(** src/client.rs:218 *)
Definition pick_finished h := match h with finished d => Some d | _ => None end.

(** src/client.rs:75-90: the ClientHello *)
Definition make_client_hello (random : bytes) : res handshake :=
  let cipher_suite := TLS_ECDHE_RSA_WITH_CHACHA20_POLY1305_SHA256 in
  let* curve_list := new_elliptic_curve_list [secp256r1] in
  let* format_list := new_ec_point_formats [PF_uncompressed] in
  let* signature_list := new_signature_algorithm_list [SigHash H_sha256 S_rsa] in
  let extensions := [curve_list; format_list; signature_list] in
  new_client_hello random cipher_suite extensions.

(** src/client.rs:94-121 *)
Definition check_server_hello (sh : server_hello) : res unit :=
  if negb (beqb (v_major (sh_version sh)) (fst tls_version) && beqb (v_minor (sh_version sh)) (snd tls_version))
  then Err IllegalParameter
  else if negb (suite_eqb (sh_suite sh) TLS_ECDHE_RSA_WITH_CHACHA20_POLY1305_SHA256) then Err IllegalParameter
  else if negb (comp_eqb (sh_comp sh) CM_null) then Err IllegalParameter
  else Ok tt.

(** src/client.rs:140-147, 200-207, 230-237: one PRF output *)
Definition prf_bytes (m : mode) (secret label_seed : bytes) (n : nat) : res bytes :=
  let* p := prf_new m secret label_seed in
  let* (out, _) := get_bytes m n p in
  Ok out.

(** src/client.rs:180-189 *)
Definition transcript (ch : handshake) (sh : server_hello) (certs : list bytes) (skx : bytes) (cke : handshake) : res bytes :=
  let* a := tls_write i_handshake ch in
  let* b := tls_write i_handshake (server_hello_msg sh) in
  let* c := tls_write i_handshake (certificate certs) in
  let* d := tls_write i_handshake (server_key_exchange skx) in
  let* e := tls_write i_handshake server_hello_done in
  let* f := tls_write i_handshake cke in
  Ok (a ++ b ++ c ++ d ++ e ++ f).

(** src/client.rs:54-246 [handshake]. *)
Definition client_handshake (m : mode) : M client unit :=
  do* cli_random := on_rng (rng_fill 32) in
  do* random := mlift (array_new 32 cli_random) in
  do* ch := mlift (make_client_hello random) in
  do* _ := on_writer (write_handshake m ch) in
  do* sh := expect m pick_server_hello in
  do* _ := mlift (check_server_hello sh) in
  do* certificate_list := expect m pick_certificate in
  do* server_key_ex_data := expect m pick_server_key_exchange in
  do* (key_data, pre_master_secret) := on_rng (compute_keys m server_key_ex_data) in
  do* _ := expect m pick_server_hello_done in
  do* cke := mlift (new_client_key_exchange key_data) in
  do* _ := on_writer (write_handshake m cke) in
  do* _ := on_writer (write_change_cipher_spec m) in
  do* master_secret := mlift (prf_bytes m pre_master_secret (s_master_secret ++ cli_random ++ sh_random sh) 48) in
  do* prf := mlift (prf_new m master_secret (s_key_expansion ++ sh_random sh ++ cli_random)) in
  do* (write_key, prf) := mlift (get_bytes m (Z.to_nat KEY_LEN) prf) in
  do* _ := on_writer (w_set_encryptor (new_encryptor m write_key)) in
  do* (read_key, prf) := mlift (get_bytes m (Z.to_nat KEY_LEN) prf) in
  do* (write_iv, prf) := mlift (get_bytes m 12 prf) in
  do* (read_iv, prf) := mlift (get_bytes m 12 prf) in
  do* _ := on_writer (w_set_iv write_iv) in
  do* _ := on_reader (r_set_iv read_iv) in
  do* msgs := mlift (transcript ch sh certificate_list server_key_ex_data cke) in
  do* verify_hash := mlift (sha256 m msgs) in
  do* client_verify_data := mlift (prf_bytes m master_secret (s_client_finished ++ verify_hash) verify_data_len) in
  do* fin := mlift (new_finished client_verify_data) in
  do* _ := on_writer (write_handshake m fin) in
  do* _ := on_reader (read_change_cipher_spec m) in
  do* _ := on_reader (r_set_decryptor (new_decryptor m read_key)) in
  do* server_finished := expect m pick_finished in
  do* fin_bytes := mlift (tls_write i_handshake fin) in
  do* verify_hash := mlift (sha256 m (msgs ++ fin_bytes)) in
  do* server_verify_data := mlift (prf_bytes m master_secret (s_server_finished ++ verify_hash) verify_data_len) in
  do* verify_ok := mlift (crypto_compare m server_finished server_verify_data) in
  if verify_ok then mret tt else mfail (Err DecryptError).

(** src/client.rs:259-271 [send_tls_alert], with [Alert::from_tls_err] (src/alert.rs:82-87): the error finally returned *)
Definition send_tls_alert (m : mode) (k : errkind) : M client errkind :=
  match k with
  | IoFailure => mret k
  | _ => fun c =>
      match on_writer (write_alert m (Alert AL_fatal (alert_from_err k))) c with
      | (Ok _, c') => (Ok k, c')
      | (Err k', c') => (Ok k', c')
      | (Panic, c') => (Panic, c')
      | (Diverge, c') => (Diverge, c')
      end
  end.
(** run [a]; on an error send the alert and return the resulting error (client.rs:36-39, 300-314) *)
Definition or_alert {A} (m : mode) (a : M client A) : M client A := fun c =>
  match a c with
  | (Err k, c') =>
      match send_tls_alert m k c' with
      | (Ok k', c'') => (Err k', c'')
      | (Err k', c'') => (Err k', c'')
      | (Panic, c'') => (Panic, c'')
      | (Diverge, c'') => (Diverge, c'')
      end
  | r => r
  end.

(** src/client.rs:27-41 [TlsClient::new] on a transport [s], [p] and random tape [g].  On an error the
    client is dropped; the final state is kept to speak about the bytes it sent. *)
Definition client_init (s : src) (p : list wevent) (g : rng) : client := Client (reader_new s) (writer_new p) g [].
(** src/client.rs:35-40 *)
Definition client_new (m : mode) (s : src) (p : list wevent) (g : rng) : res unit * client :=
  or_alert m (client_handshake m) (client_init s p g).

(** src/client.rs:248-255 [close] *)
Definition client_close (m : mode) : M client unit :=
  on_writer (write_alert m (Alert AL_fatal AD_close_notify)).

(** src/client.rs:299-315 [write_all], 290-293 [write], 295-297 [flush] *)
Definition client_write_all (m : mode) (buf : bytes) : M client unit :=
  or_alert m (on_writer (write_application_data m buf)).
(** src/client.rs:290-293 [write] *)
Definition client_write (m : mode) (buf : bytes) : M client Z :=
  do* _ := client_write_all m buf in mret (zlen buf).
(** src/client.rs:295-297 [flush] *)
Definition client_flush : M client unit := mret tt.

(** src/client.rs:319-349 [read] (with [copy_memory]): the bytes stored in a buffer of [len] bytes.  Every turn
    of the [while] stores a byte or takes some from the transport; the fuel is proved sufficient in [P_Client.v]. *)
Fixpoint client_read_loop (m : mode) (fuel : nat) (len : nat) (done : bytes) : M client bytes :=
  if (length done <? len)%nat then
    match fuel with
    | O => mfail Diverge
    | S f => fun c =>
        let remaining := (len - length done)%nat in
        let copy := fun c =>
          let necessary := Nat.min remaining (length (c_buf c)) in
          client_read_loop m f len (done ++ firstn necessary (c_buf c))
            (Client (c_reader c) (c_writer c) (c_rng c) (skipn necessary (c_buf c))) in
        match c_buf c with
        | [] =>
            match on_reader (read_application_data m) c with
            | (Ok data, c') => copy (Client (c_reader c') (c_writer c') (c_rng c') (c_buf c' ++ data))
            | (Err _, c') => (Ok done, c')
            | (Panic, c') => (Panic, c')
            | (Diverge, c') => (Diverge, c')
            end
        | _ => copy c
        end
    end
  else mret done.
(** src/client.rs:325-349 [read], started with an empty [pos] *)
Definition client_read (m : mode) (len : nat) : M client bytes := fun c =>
  client_read_loop m (S (len + src_size (r_src (c_reader c)))) len [] c.
