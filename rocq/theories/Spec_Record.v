(** Specification vocabulary for the record layer: RFC 5246 section 6.2, RFC 7905 section 2.
    Only the data types and the operations under study come from the model. *)
From Verif Require Export M_Record Spec_Wire Spec_Util.

(** RFC 5246 6.2.1 *)
Definition sp_content_type : list (content_type * Z) :=
  [(ChangeCipherSpecTy, 20); (AlertTy, 21); (HandshakeTy, 22); (ApplicationDataTy, 23)].
Scheme Equality for content_type.
Definition rfc_content_type := code_in content_type_beq sp_content_type.

(** [struct { ContentType type; ProtocolVersion version; uint16 length; opaque fragment[length]; }] *)
Definition wire (t : content_type) (maj min : byte) (fragment : bytes) : bytes :=
  [z2b (rfc_content_type t); maj; min] ++ be 2 (zlen fragment) ++ fragment.
Definition e_record (t : content_type) (fragment : bytes) : bytes := wire t x03 x03 fragment.

(** RFC 7905 2: the 64-bit sequence number left-padded to 96 bits, xored with the IV *)
Definition rfc_nonce (iv : bytes) (k : Z) : bytes := xor_zip (be 12 k) iv.
(** RFC 5246 6.2.3.3: seq_num + type + version + length of the plaintext *)
Definition rfc_ad (k : Z) (t : content_type) (maj min : byte) (len : Z) : bytes :=
  be 8 k ++ [z2b (rfc_content_type t); maj; min] ++ be 2 len.

Definition legal_fragment (f : bytes) : Prop := 1 <= zlen f <= 16384.

(** ** Ciphers as seen by the record layer *)

(** never fails on record inputs and adds [k] bytes *)
Definition seals (e : encryptor) (k : Z) : Prop :=
  forall n p a, length n = 12%nat -> length a = 13%nat -> zlen p <= 16384 ->
    exists c, e n p a = Ok c /\ zlen c = zlen p + k.
(** the decryptor undoes the encryptor *)
Definition opens (e : encryptor) (d : decryptor) : Prop :=
  forall n p a, length n = 12%nat -> length a = 13%nat -> zlen p <= 16384 + 2048 ->
    exists c, e n p a = Ok c /\ zlen c = zlen p + dc_mac_len d /\ dc_decrypt d n c a = Ok p.

(** a transport on which every write succeeds *)
Definition healthy (w : writer) : Prop := Forall (fun e => e = WOk) (w_plan w).

(** the [i]-th of the sealed fragments [ss] is the [i]-th fragment sealed under sequence number [k + i] *)
Definition sealed_as (e : encryptor) (iv : bytes) (k : Z) (t : content_type) (fs ss : list bytes) : Prop :=
  length fs = length ss /\
  forall i f s, nth_error fs i = Some f -> nth_error ss i = Some s ->
    e (rfc_nonce iv (k + Z.of_nat i)) f (rfc_ad (k + Z.of_nat i) t x03 x03 (zlen f)) = Ok s.

(** ** Histories of writer calls *)
Inductive wop :=
| OpRecord (t : content_type) (maj min : byte) (f : bytes)
| OpData (t : content_type) (d : bytes)
| OpHandshake (h : handshake)
| OpAlert (a : alert)
| OpCcs
| OpApp (d : bytes)
| OpSetEncryptor (e : encryptor)
| OpSetIv (iv : bytes).

Definition run_op (m : mode) (o : wop) : M writer unit :=
  match o with
  | OpRecord t maj min f => do* r := mlift (record_new t maj min f) in write_record m r
  | OpData t d => write_data m t d
  | OpHandshake h => write_handshake m h
  | OpAlert a => write_alert m a
  | OpCcs => write_change_cipher_spec m
  | OpApp d => write_application_data m d
  | OpSetEncryptor e => w_set_encryptor e
  | OpSetIv iv => w_set_iv iv
  end.

(** the caller may go on after an error; a panic ends the history *)
Fixpoint run_ops (m : mode) (ops : list wop) (w : writer) : list (res unit) * writer :=
  match ops with
  | [] => ([], w)
  | o :: ops' =>
      match run_op m o w with
      | (Panic, w') => ([Panic], w')
      | (Diverge, w') => ([Diverge], w')
      | (x, w') => let (xs, w'') := run_ops m ops' w' in (x :: xs, w'')
      end
  end.

(** ** Histories of reader calls: up to [n] results, ended by a panic but not by an error *)
Fixpoint reads {A} (act : M reader A) (n : nat) (r : reader) : list (res A) * reader :=
  match n with
  | O => ([], r)
  | S k =>
      match act r with
      | (Panic, r') => ([Panic], r')
      | (Diverge, r') => ([Diverge], r')
      | (x, r') => let (xs, r'') := reads act k r' in (x :: xs, r'')
      end
  end.
Fixpoint oks {A} (l : list (res A)) : list A :=
  match l with
  | [] => []
  | Ok a :: r => a :: oks r
  | _ :: r => oks r
  end.

(** ** Messages handed from a writer to a reader *)
Inductive msg_op := SendHandshake (h : handshake) | SendAlert (a : alert) | SendCcs | SendApp (d : bytes).
Definition as_wop (o : msg_op) : wop :=
  match o with
  | SendHandshake h => OpHandshake h | SendAlert a => OpAlert a | SendCcs => OpCcs | SendApp d => OpApp d
  end.
Definition wf_msg_op (o : msg_op) : Prop := match o with SendHandshake h => wf_handshake h | _ => True end.
(** each handshake message, alert and ChangeCipherSpec arrives as one message, application data as
    non-empty pieces *)
Inductive delivers : list msg_op -> list message -> Prop :=
| D_nil : delivers [] []
| D_handshake h os ms : delivers os ms -> delivers (SendHandshake h :: os) (HandshakeMessage h :: ms)
| D_alert a os ms : delivers os ms -> delivers (SendAlert a :: os) (AlertMessage a :: ms)
| D_ccs os ms : delivers os ms -> delivers (SendCcs :: os) (ChangeCipherSpecMessage :: ms)
| D_app d ps os ms : concat ps = d -> Forall legal_fragment ps -> delivers os ms ->
    delivers (SendApp d :: os) (map ApplicationDataMessage ps ++ ms).

(** a writer and a reader that agree: same keys (or none), IV and sequence number, nothing half-read *)
Definition paired (w : writer) (r : reader) : Prop :=
  w_count w = r_count r /\ 0 <= w_count w /\ w_iv w = r_iv r /\ r_buf r = [] /\
  match w_enc w, r_dec r with
  | None, None => True
  | Some e, Some d => opens e d /\ 0 <= dc_mac_len d <= 2048 /\ exists iv, w_iv w = Some iv /\ length iv = 12%nat
  | _, _ => False
  end.
(** bytes the payloads of a history amount to, an upper bound on the number of records *)
Definition payload (o : msg_op) : Z :=
  match o with SendHandshake h => zlen (e_handshake h) | SendAlert _ => 2 | SendCcs => 1 | SendApp d => zlen d end.
Definition payloads (os : list msg_op) : Z := fold_right Z.add 0 (map payload os).

(** the bytes [bs] were handed to the transport, completely or, on a transport error, up to some point *)
Definition emitted (w : writer) (x : res unit) (w' : writer) (bs : bytes) : Prop :=
  (x = Ok tt /\ w_out w' = w_out w ++ bs) \/
  (x = Err IoFailure /\ ~ healthy w /\ exists sent unsent, bs = sent ++ unsent /\ w_out w' = w_out w ++ sent).

(** entries of the ghost log *)
Definition log_nonce (e : bytes * bytes * bytes * bytes) : bytes := fst (fst (fst e)).
Definition log_plain (e : bytes * bytes * bytes * bytes) : bytes := snd (fst (fst e)).
Definition log_ad (e : bytes * bytes * bytes * bytes) : bytes := snd (fst e).
Definition log_sealed (e : bytes * bytes * bytes * bytes) : bytes := snd e.
(** [e] was the encryptor of the logged call *)
Definition logged_by (e : encryptor) (l : bytes * bytes * bytes * bytes) : Prop :=
  e (log_nonce l) (log_plain l) (log_ad l) = Ok (log_sealed l).
(** [piece] is a record carrying a sealed fragment of the log, possibly cut short by a transport error *)
Definition sealed_piece (log : list (bytes * bytes * bytes * bytes)) (piece : bytes) : Prop :=
  exists t maj min l cut, In l log /\ piece ++ cut = wire t maj min (log_sealed l).

(** ** Readers that differ only in how the transport splits its stream (C08) *)
Definition same_reader (r1 r2 : reader) : Prop :=
  r_dec r1 = r_dec r2 /\ r_count r1 = r_count r2 /\ r_buf r1 = r_buf r2 /\ r_iv r1 = r_iv r2 /\
  same_stream (r_src r1) (r_src r2).
Definition split_independent {A} (act : M reader A) : Prop :=
  forall r1 r2, same_reader r1 r2 -> fst (act r1) = fst (act r2) /\ same_reader (snd (act r1)) (snd (act r2)).

(** ** A peer under attack (C23) *)
(** everything the transport will ever hand over, across its failures *)
Definition all_bytes (s : src) : bytes :=
  concat (map (fun e => match e with RData b => b | RErr => [] end) s).
(** the records a peer sealed, with their ciphertexts, numbered from 0 *)
Definition sealed_by (e : encryptor) (iv : bytes) (peer : list (record * bytes)) : Prop :=
  forall k rec c, nth_error peer k = Some (rec, c) ->
    zlen (rc_fragment rec) <= 16384 + 2048 /\
    e (rfc_nonce iv (Z.of_nat k)) (rc_fragment rec)
      (rfc_ad (Z.of_nat k) (rc_type rec) (rc_major rec) (rc_minor rec) (zlen (rc_fragment rec))) = Ok c.
(** the (nonce, additional data, ciphertext) triples of that history *)
Definition produced (iv : bytes) (peer : list (record * bytes)) (n a c : bytes) : Prop :=
  exists k rec, nth_error peer k = Some (rec, c) /\ n = rfc_nonce iv (Z.of_nat k) /\
    a = rfc_ad (Z.of_nat k) (rc_type rec) (rc_major rec) (rc_minor rec) (zlen (rc_fragment rec)).
(** the bytes on the wire contain a record that the decryptor accepts for some sequence number although
    the peer never produced that triple *)
Definition forged (d : decryptor) (iv : bytes) (peer : list (record * bytes)) (s : src) : Prop :=
  exists before after k t maj min c p,
    all_bytes s = before ++ wire t maj min c ++ after /\ zlen c <= 16384 + 2048 /\ 0 <= k < 2 ^ 64 /\
    dc_decrypt d (rfc_nonce iv k) c (rfc_ad k t maj min (zlen c - dc_mac_len d)) = Ok p /\
    ~ produced iv peer (rfc_nonce iv k) (rfc_ad k t maj min (zlen c - dc_mac_len d)) c.
Definition is_app (r : record) : bool := content_type_beq (rc_type r) ApplicationDataTy.
Definition app_bytes (recs : list record) : bytes := concat (map rc_fragment (filter is_app recs)).

(** the bytes [w] contain, in this order, sealed records that open to [recs] under consecutive sequence
    numbers from [k] *)
Inductive opened (d : decryptor) (iv : bytes) : Z -> bytes -> list record -> Prop :=
| Opened_nil k w : opened d iv k w []
| Opened_cons k skipped t maj min c p w recs :
    dc_decrypt d (rfc_nonce iv k) c (rfc_ad k t maj min (zlen c - dc_mac_len d)) = Ok p ->
    opened d iv (k + 1) w recs ->
    opened d iv k (skipped ++ wire t maj min c ++ w) (Rec t maj min p :: recs).

(** a fragment that is a ChangeCipherSpec; a fragment that is a known alert (RFC 5246 7.1, 7.2) *)
Definition ccs_fragment : bytes := [x01].
Definition known_alert (f : bytes) (a : alert) : Prop :=
  exists l d more, f = l :: d :: more /\ In (al_level a, b2z l) sp_alert_level /\ In (al_desc a, b2z d) sp_alert_desc.
(** no complete handshake message waits in the reader's buffer *)
Definition no_pending (r : reader) : Prop := get_message (r_buf r) = (Ok None, r_buf r).
