(** More specification vocabulary for src/client.rs: alerts received and messages that cannot be decoded. *)
From Verif Require Export Spec_Client3.

(** the same message without its extension block *)
Definition without_extensions (h : handshake) : handshake :=
  match h with
  | client_hello_msg b => client_hello_msg (ClientHello (ch_version b) (ch_random b) (ch_session b) (ch_suites b) (ch_comps b) None)
  | server_hello_msg b => server_hello_msg (ServerHello (sh_version b) (sh_random b) (sh_session b) (sh_suite b) (sh_comp b) None)
  | _ => h
  end.
(** the messages whose body is kept as it is (RFC 5246 7.4.3, 7.4.7: their structure depends on the key exchange) *)
Definition opaque_body (h : handshake) : Prop :=
  match h with server_key_exchange _ | client_key_exchange _ => True | _ => False end.

(** a run that got to stage [st] and now reads a handshake message from [r] *)
Inductive awaits (m : mode) (s : src) (g : rng) : stage -> reader -> Prop :=
| AW_hello : awaits m s g (Hello (firstn 32 g)) (reader_new s)
| AW_certificate sh r1 : read_handshake m (reader_new s) = (Ok (server_hello_msg sh), r1) -> offered sh ->
    awaits m s g (Hello (firstn 32 g)) r1
| AW_exchange sh certs r1 r2 : read_handshake m (reader_new s) = (Ok (server_hello_msg sh), r1) -> offered sh ->
    read_handshake m r1 = (Ok (certificate certs), r2) -> awaits m s g (Hello (firstn 32 g)) r2
| AW_done sh certs skx r1 r2 r3 kp g' : read_handshake m (reader_new s) = (Ok (server_hello_msg sh), r1) -> offered sh ->
    read_handshake m r1 = (Ok (certificate certs), r2) -> read_handshake m r2 = (Ok (server_key_exchange skx), r3) ->
    compute_keys m skx (skipn 32 g) = (Ok kp, g') -> awaits m s g (Hello (firstn 32 g)) r3
| AW_finished ss r r1 : reached m s g (Complete ss) -> server_flight m (reader_new s) (s_sh ss) (s_certs ss) (s_ske ss) r ->
    read_change_cipher_spec m (ived_reader r (s_keys ss)) = (Ok tt, r1) -> awaits m s g (Complete ss) (decrypting m r1 (s_keys ss)).
(** the same for the ChangeCipherSpec *)
Definition awaits_ccs (m : mode) (s : src) (g : rng) (ss : session) (r : reader) : Prop :=
  exists r', reached m s g (Complete ss) /\ server_flight m (reader_new s) (s_sh ss) (s_certs ss) (s_ske ss) r' /\ r = ived_reader r' (s_keys ss).
(** some message is due from [r] *)
Definition due (m : mode) (s : src) (g : rng) (r : reader) : Prop := (exists st, awaits m s g st r) \/ exists ss, awaits_ccs m s g ss r.
(** what an error of construction says about the bytes received *)
Definition meaning (m : mode) (s : src) (g : rng) (k : errkind) : Prop :=
  match k with
  | UnexpectedMessage => True
  | IoFailure => (exists r r', due m s g r /\ read_message m r = (Err IoFailure, r')) \/
      exists skx, exchanged m s skx /\ tls_read i_ske skx = Err IoFailure
  | DecodeError => (exists r r', due m s g r /\ read_message m r = (Err DecodeError, r')) \/
      exists skx, exchanged m s skx /\ tls_read i_ske skx = Err DecodeError
  | InternalError => exists r r', due m s g r /\ read_message m r = (Err InternalError, r')
  | RecordOverflow => exists r r', due m s g r /\ read_message m r = (Err RecordOverflow, r')
  | BadRecordMac => exists ss r r', awaits m s g (Complete ss) r /\ read_message m r = (Err BadRecordMac, r')
  | AlertReceived => exists st r a r', awaits m s g st r /\ read_message m r = (Ok (AlertMessage a), r')
  | IllegalParameter => (exists sh r1, read_handshake m (reader_new s) = (Ok (server_hello_msg sh), r1) /\ ~ offered sh) \/
      exists skx k rest, exchanged m s skx /\ tls_read i_ske skx = Ok (k, rest) /\ from_uncompressed_bytes m (ske_public k) = Ok None
  | DecryptError => exists ss r v r', awaits_ccs m s g ss r /\ server_answer m r (s_keys ss) v r' /\ v <> expected_server ss
  end.

(** [f] is the protected form of [p] in a record of that type and version, under number [k] (RFC 5246 6.2.3.3, RFC 7905 2) *)
Definition protects (key iv : bytes) (k : Z) (t : content_type) (maj min : byte) (p f : bytes) : Prop :=
  f = aead_seal key (rfc_nonce iv k) (rfc_ad k t maj min (zlen p)) p.
