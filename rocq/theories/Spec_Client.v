(** Specification vocabulary for src/client.rs: the handshake of RFC 5246 section 7 with the suite of RFC 7905,
    written over the independent encodings ([Spec_Wire.v], [Spec_Record.v]) and primitives ([Spec_Crypto.v]). *)
From Verif Require Export M_Client Spec_Record Spec_Ecdhe Spec_Crypto.
From Coq Require Strings.String.
Notation string := String.string.
Definition ascii (s : string) : bytes := String.list_byte_of_string s.
Import String.StringSyntax.
Local Open Scope string_scope.
Local Open Scope list_scope.

(** RFC 5246 5: PRF(secret, label, seed), the first [n] bytes *)
Definition PRF (secret : bytes) (label : string) (seed : bytes) (n : nat) : bytes :=
  firstn n (P_hash secret (ascii label ++ seed) (n / 32 + 1)).
(** 8.1 *)
Definition master_secret (pms cr sr : bytes) : bytes := PRF pms "master secret" (cr ++ sr) 48.
(** 6.3: no MAC keys, 32-byte keys, 12-byte IVs (RFC 7905 section 2) *)
Record keys := Keys { k_client : bytes; k_server : bytes; iv_client : bytes; iv_server : bytes }.
Definition key_block (ms cr sr : bytes) : keys :=
  let b := PRF ms "key expansion" (sr ++ cr) 88 in
  Keys (firstn 32 b) (firstn 32 (skipn 32 b)) (firstn 12 (skipn 64 b)) (firstn 12 (skipn 76 b)).
(** 7.4.9 *)
Definition verify_data (ms : bytes) (label : string) (msgs : list handshake) : bytes :=
  PRF ms label (SHA256 (concat (map e_handshake msgs))) 12.

(** what the client offers: TLS 1.2, one suite, no compression, P-256, uncompressed points, SHA256/RSA *)
Definition offer (random : bytes) : handshake :=
  client_hello_msg (ClientHello (Version x03 x03) random [] [TLS_ECDHE_RSA_WITH_CHACHA20_POLY1305_SHA256] [CM_null]
    (Some [elliptic_curves [secp256r1]; ec_point_formats [PF_uncompressed]; signature_algorithms [SigHash H_sha256 S_rsa]])).

(** ** One run of the protocol: the values both sides end up agreeing on *)
Record session := Session {
  s_cr : bytes;                  (** client random *)
  s_sh : server_hello;
  s_certs : list bytes;
  s_ske : bytes;                 (** body of ServerKeyExchange *)
  s_cke : bytes;                 (** body of ClientKeyExchange *)
  s_pms : bytes }.
Definition s_master (s : session) : bytes := master_secret (s_pms s) (s_cr s) (sh_random (s_sh s)).
Definition s_keys (s : session) : keys := key_block (s_master s) (s_cr s) (sh_random (s_sh s)).
(** the handshake messages up to ClientKeyExchange, and the two Finished *)
Definition s_msgs (s : session) : list handshake :=
  [offer (s_cr s); server_hello_msg (s_sh s); certificate (s_certs s); server_key_exchange (s_ske s);
   server_hello_done; client_key_exchange (s_cke s)].
Definition s_client_fin (s : session) : handshake :=
  finished (verify_data (s_master s) "client finished" (s_msgs s)).
Definition s_server_fin (s : session) : handshake :=
  finished (verify_data (s_master s) "server finished" (s_msgs s ++ [s_client_fin s])).

(** ** What the client puts on the wire *)
(** the record that carries [f] in the clear is [e_record t f]; sealed under [key], [iv] and number [k]: *)
Definition sealed_record (key iv : bytes) (k : Z) (t : content_type) (f : bytes) : bytes :=
  e_record t (aead_seal key (rfc_nonce iv k) (rfc_ad k t x03 x03 (zlen f)) f).
Definition flight_hello (cr : bytes) : bytes := e_record HandshakeTy (e_handshake (offer cr)).
Definition flight_exchange (s : session) : bytes :=
  (e_record HandshakeTy (e_handshake (client_key_exchange (s_cke s))) ++ e_record ChangeCipherSpecTy [x01]).
Definition flight_finished (s : session) : bytes :=
  sealed_record (k_client (s_keys s)) (iv_client (s_keys s)) 0 HandshakeTy (e_handshake (s_client_fin s)).

(** ** What the server must have sent, as delivered by the reader *)
(** the server's first flight as the reader delivers it *)
Definition server_flight (m : mode) (r : reader) (sh : server_hello) (certs : list bytes) (skx : bytes) (r' : reader) : Prop :=
  exists r1 r2 r3, read_handshake m r = (Ok (server_hello_msg sh), r1) /\ read_handshake m r1 = (Ok (certificate certs), r2) /\
    read_handshake m r2 = (Ok (server_key_exchange skx), r3) /\ read_handshake m r3 = (Ok server_hello_done, r').

(** the ChangeCipherSpec, then a Finished carrying [v] read with the server's key *)
Definition decrypting (m : mode) (r : reader) (K : keys) : reader :=
  Reader (r_src r) (Some (new_decryptor m (k_server K))) 0 (r_buf r) (r_iv r).
Definition server_answer (m : mode) (r : reader) (K : keys) (v : bytes) (r' : reader) : Prop :=
  exists r1, read_change_cipher_spec m r = (Ok tt, r1) /\ read_handshake m (decrypting m r1 K) = (Ok (finished v), r').
Definition expected_server (s : session) : bytes := verify_data (s_master s) "server finished" (s_msgs s ++ [s_client_fin s]).

(** ** Runs of the client *)
(** [src/alert.rs:57-71] against RFC 5246 7.2.2: the alert for each kind of error *)
Definition alert_for (k : errkind) : Z :=
  match k with
  | UnexpectedMessage => 10 | BadRecordMac => 20 | RecordOverflow => 22 | IllegalParameter => 47
  | DecodeError => 50 | DecryptError => 51 | InternalError | IoFailure => 80 | AlertReceived => 0
  end.
(** how far a run got: nothing sent, ClientHello sent, everything sent *)
Inductive stage := Nothing | Hello (cr : bytes) | Complete (s : session).
Definition stage_out (st : stage) : bytes :=
  match st with
  | Nothing => []
  | Hello cr => flight_hello cr
  | Complete s => flight_hello (s_cr s) ++ flight_exchange s ++ flight_finished s
  end.
(** the fatal alert: in the clear, or sealed under the next sequence number once Finished has been sent *)
Definition alert_out (st : stage) (k : errkind) : bytes :=
  let f := [x02; z2b (alert_for k)] in
  match st with
  | Nothing | Hello _ => e_record AlertTy f
  | Complete s => sealed_record (k_client (s_keys s)) (iv_client (s_keys s)) 1 AlertTy f
  end.
(** what must have happened before: the random bytes were drawn; the server's first flight, ServerHelloDone
    included, was read, checked and answered by the key exchange *)
Definition reached (m : mode) (s : src) (g : rng) (st : stage) : Prop :=
  match st with
  | Nothing => True
  | Hello cr => (32 <= length g)%nat /\ cr = firstn 32 g
  | Complete ss => (32 <= length g)%nat /\ s_cr ss = firstn 32 g /\
      (exists r', server_flight m (reader_new s) (s_sh ss) (s_certs ss) (s_ske ss) r') /\
      sh_version (s_sh ss) = Version x03 x03 /\ sh_suite (s_sh ss) = TLS_ECDHE_RSA_WITH_CHACHA20_POLY1305_SHA256 /\
      sh_comp (s_sh ss) = CM_null /\
      (exists g', compute_keys m (s_ske ss) (skipn 32 g) = (Ok (s_cke ss, s_pms ss), g'))
  end.
(** the server's messages up to its key exchange, as delivered *)
Definition exchanged (m : mode) (s : src) (skx : bytes) : Prop :=
  exists sh certs r1 r2 r3, read_handshake m (reader_new s) = (Ok (server_hello_msg sh), r1) /\ check_server_hello sh = Ok tt /\
    read_handshake m r1 = (Ok (certificate certs), r2) /\ read_handshake m r2 = (Ok (server_key_exchange skx), r3).
(** the reader with the server's IV set *)
Definition ived_reader (r : reader) (K : keys) : reader := Reader (r_src r) (r_dec r) (r_count r) (r_buf r) (Some (iv_server K)).
(** the server's whole side of the handshake, up to a Finished with the expected contents *)
Definition answered (m : mode) (s : src) (ss : session) (r' : reader) : Prop :=
  exists r, server_flight m (reader_new s) (s_sh ss) (s_certs ss) (s_ske ss) r /\
    server_answer m (ived_reader r (s_keys ss)) (s_keys ss) (expected_server ss) r'.

(** the run cannot get further than [st]: no randomness; the server's first flight was not delivered or not
    acceptable; its second one was not delivered or not as expected *)
Definition stopped (m : mode) (s : src) (g : rng) (st : stage) : Prop :=
  match st with
  | Nothing => (length g < 32)%nat
  | Hello _ => forall ss, ~ reached m s g (Complete ss)
  | Complete ss => forall r', ~ answered m s ss r'
  end.

(** ** What can go wrong, and how it is reported *)
(** the next handshake message cannot be read, or is not of the expected form *)
Definition refused (m : mode) (r : reader) (expected : handshake -> Prop) (k : errkind) : Prop :=
  (exists r', read_handshake m r = (Err k, r')) \/
  (k = UnexpectedMessage /\ exists h r', read_handshake m r = (Ok h, r') /\ ~ expected h).
Definition offered (sh : server_hello) : Prop :=
  sh_version sh = Version x03 x03 /\ sh_suite sh = TLS_ECDHE_RSA_WITH_CHACHA20_POLY1305_SHA256 /\ sh_comp sh = CM_null.
(** in the server's first flight; [g] is the randomness left after the client random *)
Inductive fault_flight (m : mode) (s : src) (g : rng) : errkind -> Prop :=
| FF_hello k : refused m (reader_new s) (fun h => exists sh, h = server_hello_msg sh) k -> fault_flight m s g k
| FF_parameters sh r1 : read_handshake m (reader_new s) = (Ok (server_hello_msg sh), r1) -> ~ offered sh ->
    fault_flight m s g IllegalParameter
| FF_certificate sh r1 k : read_handshake m (reader_new s) = (Ok (server_hello_msg sh), r1) -> offered sh ->
    refused m r1 (fun h => exists certs, h = certificate certs) k -> fault_flight m s g k
| FF_exchange sh certs r1 r2 k : read_handshake m (reader_new s) = (Ok (server_hello_msg sh), r1) -> offered sh ->
    read_handshake m r1 = (Ok (certificate certs), r2) ->
    refused m r2 (fun h => exists skx, h = server_key_exchange skx) k -> fault_flight m s g k
| FF_keys sh certs skx r1 r2 r3 k g' : read_handshake m (reader_new s) = (Ok (server_hello_msg sh), r1) -> offered sh ->
    read_handshake m r1 = (Ok (certificate certs), r2) -> read_handshake m r2 = (Ok (server_key_exchange skx), r3) ->
    compute_keys m skx g = (Err k, g') -> fault_flight m s g k
| FF_done sh certs skx r1 r2 r3 kp g' k : read_handshake m (reader_new s) = (Ok (server_hello_msg sh), r1) -> offered sh ->
    read_handshake m r1 = (Ok (certificate certs), r2) -> read_handshake m r2 = (Ok (server_key_exchange skx), r3) ->
    compute_keys m skx g = (Ok kp, g') -> refused m r3 (fun h => h = server_hello_done) k -> fault_flight m s g k.
(** in its second flight, read from [r] *)
Inductive fault_answer (m : mode) (r : reader) (ss : session) : errkind -> Prop :=
| FA_ccs k r' : read_change_cipher_spec m r = (Err k, r') -> fault_answer m r ss k
| FA_finished r1 k : read_change_cipher_spec m r = (Ok tt, r1) ->
    refused m (decrypting m r1 (s_keys ss)) (fun h => exists v, h = finished v) k -> fault_answer m r ss k
| FA_verify v r' : server_answer m r (s_keys ss) v r' -> v <> expected_server ss -> fault_answer m r ss DecryptError.
Inductive fault (m : mode) (s : src) (g : rng) : stage -> errkind -> Prop :=
| F_first k : fault_flight m s (skipn 32 g) k -> fault m s g (Hello (firstn 32 g)) k
| F_second ss r k : reached m s g (Complete ss) -> server_flight m (reader_new s) (s_sh ss) (s_certs ss) (s_ske ss) r ->
    fault_answer m (ived_reader r (s_keys ss)) ss k -> fault m s g (Complete ss) k.
(** how the peer learns of it *)
Definition signal (st : stage) (k : errkind) : bytes := match k with IoFailure => [] | _ => alert_out st k end.

(** the call returned, or at least ended *)
Definition fine {A} (x : res A) : Prop := match x with Ok _ | Err _ => True | _ => False end.
Definition halts {A} (x : res A) : Prop := match x with Diverge => False | _ => True end.
(** [out] is what a transport that stopped working took of [bs] *)
Definition cut (p : list wevent) (bs out : bytes) : Prop :=
  ~ healthy (writer_new p) /\ exists unsent, bs = out ++ unsent.

(** ** After the handshake *)
(** one is a prefix of the other *)
Definition comparable (a b : bytes) : Prop := exists more, a = b ++ more \/ b = a ++ more.
(** successive calls of [read] with buffers of the given sizes; a panic ends the history *)
Fixpoint client_reads (m : mode) (sizes : list nat) (c : client) : list (res bytes) * client :=
  match sizes with
  | [] => ([], c)
  | n :: sizes' =>
      match client_read m n c with
      | (Panic, c') => ([Panic], c')
      | (Diverge, c') => ([Diverge], c')
      | (x, c') => let (xs, c'') := client_reads m sizes' c' in (x :: xs, c'')
      end
  end.
(** records of type [t] with contents [fs] sealed under the sequence numbers from [k] *)
Fixpoint sealed_stream (key iv : bytes) (k : Z) (t : content_type) (fs : list bytes) : bytes :=
  match fs with
  | [] => []
  | f :: fs' => sealed_record key iv k t f ++ sealed_stream key iv (k + 1) t fs'
  end.
(** a reader switched to [key] and [iv] whose next record is number [k] *)
Definition keyed (m : mode) (r : reader) (key iv : bytes) (k : Z) : Prop :=
  r_dec r = Some (new_decryptor m key) /\ r_iv r = Some iv /\ r_count r = k /\ length key = 32%nat /\ length iv = 12%nat /\ 0 <= k.
(** a client about to receive [fs] as application data under [key], [iv] and the numbers from [k], then [rest] *)
Definition serving (m : mode) (c : client) (key iv : bytes) (k : Z) (fs : list bytes) (rest : bytes) : Prop :=
  keyed m (c_reader c) key iv k /\ stream (r_src (c_reader c)) = sealed_stream key iv k ApplicationDataTy fs ++ rest /\
  Forall (fun f => zlen f <= 16384) fs /\ k + zlen fs < 2 ^ 64 /\ no_pending (c_reader c).
(** records that the peer may seal and that make [read] panic: alerts other than close_notify, ChangeCipherSpec,
    handshake messages, over-long records *)
Definition crashing (key iv : bytes) (k : Z) (bs : bytes) : Prop :=
  (exists l d, d <> AD_close_notify /\ bs = sealed_record key iv k AlertTy [z2b (rfc_alert_level l); z2b (rfc_alert_desc d)]) \/
  bs = sealed_record key iv k ChangeCipherSpecTy [x01] \/
  (exists h, wf_handshake h /\ legal_fragment (e_handshake h) /\ bs = sealed_record key iv k HandshakeTy (e_handshake h)) \/
  (exists t f, 16384 < zlen f <= 16384 + 2048 - 16 /\ bs = sealed_record key iv k t f).
(** somewhere in [s] there is a record with contents [p] that authenticates under [key], [iv] and the number [k] *)
Definition sealed_in (s : src) (key iv : bytes) (k : Z) (t : content_type) (p : bytes) : Prop :=
  exists before after maj min, all_bytes s = before ++ wire t maj min (aead_seal key (rfc_nonce iv k) (rfc_ad k t maj min (zlen p)) p) ++ after.
(** a sealed record that is not application data, or an over-long one *)
Definition alien (s : src) (key iv : bytes) (k : Z) : Prop :=
  exists k' t p, k <= k' /\ sealed_in s key iv k' t p /\ (t <> ApplicationDataTy \/ 16384 < zlen p).
(** a writer switched to [key] and [iv] *)
Definition keyed_w (m : mode) (w : writer) (key iv : bytes) (k : Z) : Prop :=
  w_enc w = Some (new_encryptor m key) /\ w_iv w = Some iv /\ w_count w = k /\ length key = 32%nat /\ length iv = 12%nat /\ 0 <= k.
(** the transports of two clients split the same stream differently; all else is equal *)
Definition same_client (c1 c2 : client) : Prop :=
  same_reader (c_reader c1) (c_reader c2) /\ c_writer c1 = c_writer c2 /\ c_rng c1 = c_rng c2 /\ c_buf c1 = c_buf c2.

(** ** Histories of calls on a connected client *)
Inductive call := Read (n : nat) | Write (buf : bytes) | Close.
Inductive answer := Got (x : res bytes) | Wrote (x : res Z) | Closed (x : res unit).
Definition do_call (m : mode) (o : call) (c : client) : answer * client :=
  match o with
  | Read n => let (x, c') := client_read m n c in (Got x, c')
  | Write buf => let (x, c') := client_write m buf c in (Wrote x, c')
  | Close => let (x, c') := client_close m c in (Closed x, c')
  end.
Fixpoint calls (m : mode) (l : list call) (c : client) : list answer * client :=
  match l with
  | [] => ([], c)
  | o :: l' => let (a, c1) := do_call m o c in let (r, c') := calls m l' c1 in (a :: r, c')
  end.
Definition is_read (o : call) : bool := match o with Read _ => true | _ => false end.
Definition is_got (a : answer) : bool := match a with Got _ => true | _ => false end.
Definition is_write (o : call) : bool := negb (is_read o).
Definition is_wrote (a : answer) : bool := negb (is_got a).
(** the records that a history of calls puts on the wire *)
Inductive renders : list call -> list (content_type * bytes) -> Prop :=
| R_nil : renders [] []
| R_read n l it : renders l it -> renders (Read n :: l) it
| R_write buf fs l it : concat fs = buf -> Forall legal_fragment fs -> renders l it ->
    renders (Write buf :: l) (map (pair ApplicationDataTy) fs ++ it)
| R_close l it : renders l it -> renders (Close :: l) ((AlertTy, [x02; x00]) :: it).
Fixpoint sealed_items (key iv : bytes) (k : Z) (it : list (content_type * bytes)) : bytes :=
  match it with
  | [] => []
  | (t, f) :: it' => sealed_record key iv k t f ++ sealed_items key iv (k + 1) it'
  end.
(** an upper bound of the number of these records *)
Definition call_cost (o : call) : Z := match o with Read _ => 0 | Write buf => zlen buf | Close => 1 end.
Definition cost (l : list call) : Z := fold_right (fun o n => call_cost o + n) 0 l.
(** the answers of calls that went well; [read] is free to answer anything *)
Definition good_answer (o : call) (a : answer) : Prop :=
  match o, a with
  | Read _, Got _ => True
  | Write buf, Wrote x => x = Ok (zlen buf)
  | Close, Closed x => x = Ok tt
  | _, _ => False
  end.

(** ** A server that follows RFC 5246 with this suite (C35) *)
(** the order of the base point, FIPS 186-4 D.1.2.3 *)
Definition P256_order : Z := 0xffffffff00000000ffffffffffffffffbce6faada7179e84f3b9cac2fc632551.
(** what it is free to choose; [sv_secret] is its ephemeral private key *)
Record server := Server {
  sv_random : bytes; sv_session : bytes; sv_exts : option (list extension); sv_certs : list bytes;
  sv_curve : named_curve; sv_secret : Z; sv_sig : digitally_signed }.
Definition sv_hello (sv : server) : server_hello :=
  ServerHello (Version x03 x03) (sv_random sv) (sv_session sv) TLS_ECDHE_RSA_WITH_CHACHA20_POLY1305_SHA256 CM_null (sv_exts sv).
Definition wf_server (sv : server) : Prop :=
  wf_server_hello (sv_hello sv) /\ wf_handshake (certificate (sv_certs sv)) /\ 0 < sv_secret sv < P256_order /\ wf_digitally_signed (sv_sig sv).
(** the values of the run as this server computes them from the client's random and public point *)
Definition agreed (sv : server) (cr : bytes) (C : pt) (ss : session) : Prop :=
  exists sx sy cx cy zx zy, nmul (Z.to_nat (sv_secret sv)) Gpt = Aff sx sy /\ C = Aff cx cy /\
    nmul (Z.to_nat (sv_secret sv)) C = Aff zx zy /\
    ss = Session cr (sv_hello sv) (sv_certs sv) (e_ske (Ske (sv_curve sv) (sec1 sx sy) (sv_sig sv)))
           (x41 :: sec1 cx cy) (be 32 (fval zx)).
(** its two flights: handshake messages in any fragmentation, the second one under its key *)
Definition first_flight (ss : session) (fs : list bytes) : Prop :=
  Forall legal_fragment fs /\
  concat fs = concat (map e_handshake [server_hello_msg (s_sh ss); certificate (s_certs ss); server_key_exchange (s_ske ss); server_hello_done]).
Definition second_flight (ss : session) (fs : list bytes) : Prop :=
  Forall legal_fragment fs /\ concat fs = e_handshake (s_server_fin ss).
Definition served (ss : session) (fs1 fs2 : list bytes) : bytes :=
  concat (map (e_record HandshakeTy) fs1) ++ e_record ChangeCipherSpecTy [x01] ++
  sealed_stream (k_server (s_keys ss)) (iv_server (s_keys ss)) 0 HandshakeTy fs2.
(** the scalar the client uses for a drawn number: every fourth byte, up to the seventh *)
Definition used_scalar (x : Z) : Z :=
  x mod 256 + 256 * (x / 2 ^ 32 mod 256) + 256 ^ 2 * (x / 2 ^ 64 mod 256) + 256 ^ 3 * (x / 2 ^ 96 mod 256) +
  256 ^ 4 * (x / 2 ^ 128 mod 256) + 256 ^ 5 * (x / 2 ^ 160 mod 256) + 256 ^ 6 * (x / 2 ^ 192 mod 256).
