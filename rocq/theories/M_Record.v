(** Model of src/tls.rs (record layer) and of the [Encryptor]/[Decryptor] traits of src/cipher/mod.rs.

    Transport output: bytes accepted so far plus a plan of the outcomes of successive [write_all] calls on
    non-empty slices (an empty plan means every call succeeds).  The writer carries a ghost log of the
    encryptor calls (nonce, plaintext, additional data, ciphertext); nothing reads it. *)
From Verif Require Export M_Codec.

(** src/tls.rs:22 *)
Definition tls_version : byte * byte := (x03, x03).

(** src/tls.rs:24-34 [ContentType] *)
Inductive content_type := ChangeCipherSpecTy | AlertTy | HandshakeTy | ApplicationDataTy.
(** src/tls.rs:28-31 *)
Definition content_type_code t : Z :=
  match t with ChangeCipherSpecTy => 20 | AlertTy => 21 | HandshakeTy => 22 | ApplicationDataTy => 23 end.
(** src/tls.rs:28-31 *)
Definition content_type_all := [ChangeCipherSpecTy; AlertTy; HandshakeTy; ApplicationDataTy].

(** src/tls.rs:37, 40 *)
Definition RECORD_MAX_LEN : Z := 2 ^ 14.
(** src/tls.rs:40 *)
Definition ENC_RECORD_MAX_LEN : Z := 2 ^ 14 + 2048.

(** src/tls.rs:44-50 *)
Record record := Rec { rc_type : content_type; rc_major : byte; rc_minor : byte; rc_fragment : bytes }.

(** src/tls.rs:53-70 [Record::new]: panics above [RECORD_MAX_LEN] *)
Definition record_new (t : content_type) (maj min : byte) (f : bytes) : res record :=
  if RECORD_MAX_LEN <? zlen f then Panic else Ok (Rec t maj min f).

(** src/cipher/mod.rs:22-32 [Encryptor], [Decryptor].  The only implementations
    (src/cipher/chacha20_poly1305.rs) do not change their state, so both are functions. *)
Definition encryptor := bytes -> bytes -> bytes -> res bytes.        (* nonce, plaintext, ad *)
(** src/cipher/mod.rs:28-32 [Decryptor] *)
Record decryptor := Decryptor {
  dc_decrypt : bytes -> bytes -> bytes -> res bytes;                 (* nonce, data, ad *)
  dc_mac_len : Z }.

(** ** Writer *)
(** Outcome of one [write_all] on the transport: success, or an error after [k] bytes were accepted
    (the transport behind src/tls.rs:147-151; the environment, not code of the crate) *)
Inductive wevent := WOk | WFail (k : nat).

(** src/tls.rs:75-81 [TlsWriter]; [w_out], [w_plan] are the transport, [w_log] is ghost *)
Record writer := Writer {
  w_out : bytes; w_plan : list wevent;
  w_enc : option encryptor; w_count : Z; w_iv : option bytes;
  w_log : list (bytes * bytes * bytes * bytes) }.

(** src/tls.rs:86-93 [TlsWriter::new] on a transport with plan [p] *)
Definition writer_new (p : list wevent) : writer := Writer [] p None 0 None [].

(** src/tls.rs:102-106 *)
Definition w_set_encryptor (e : encryptor) : M writer unit := fun w =>
  match w_enc w with
  | Some _ => (Panic, w)
  | None => (Ok tt, Writer (w_out w) (w_plan w) (Some e) 0 (w_iv w) (w_log w))
  end.
(** src/tls.rs:110-113 *)
Definition w_set_iv (iv : bytes) : M writer unit := fun w =>
  match w_iv w with
  | Some _ => (Panic, w)
  | None => (Ok tt, Writer (w_out w) (w_plan w) (w_enc w) (w_count w) (Some iv) (w_log w))
  end.

(** [Write::write_all] on the transport, called at src/tls.rs:147-151: the default loop does not touch it for an empty slice *)
Definition write_all (bs : bytes) : M writer unit := fun w =>
  match bs with
  | [] => (Ok tt, w)
  | _ =>
    match w_plan w with
    | [] => (Ok tt, Writer (w_out w ++ bs) [] (w_enc w) (w_count w) (w_iv w) (w_log w))
    | WOk :: p => (Ok tt, Writer (w_out w ++ bs) p (w_enc w) (w_count w) (w_iv w) (w_log w))
    | WFail k :: p =>
        (Err IoFailure, Writer (w_out w ++ firstn k bs) p (w_enc w) (w_count w) (w_iv w) (w_log w))
    end
  end.

(** src/tls.rs:119-121 and 132-137 (also 282-284, 302-307): nonce from sequence number and IV *)
Definition seq_nonce (count : Z) (iv : option bytes) : bytes :=
  let n := zeros 4 ++ be 8 count in
  match iv with Some v => xor_into n v | None => n end.

(** src/tls.rs:123-130 (also 287-300) *)
Definition seq_ad (count : Z) (t : content_type) (maj min : byte) (len : Z) : bytes :=
  be 8 count ++ [z2b (content_type_code t); maj; min] ++ be 2 len.

(** src/tls.rs:116-140: the fragment as it goes on the wire *)
Definition protect (r : record) : M writer bytes := fun w =>
  match w_enc w with
  | None => (Ok (rc_fragment r), w)
  | Some e =>
      let nonce := seq_nonce (w_count w) (w_iv w) in
      let ad := seq_ad (w_count w) (rc_type r) (rc_major r) (rc_minor r) (zlen (rc_fragment r)) in
      match e nonce (rc_fragment r) ad with
      | Ok c => (Ok c, Writer (w_out w) (w_plan w) (w_enc w) (w_count w) (w_iv w)
                              (w_log w ++ [(nonce, rc_fragment r, ad, c)]))
      | Err k => (Err k, w)
      | Panic => (Panic, w)
      | Diverge => (Diverge, w)
      end
  end.

(** src/tls.rs:153 *)
Definition w_bump (m : mode) : M writer unit := fun w =>
  match ck m 64 (w_count w + 1) with
  | Ok c => (Ok tt, Writer (w_out w) (w_plan w) (w_enc w) c (w_iv w) (w_log w))
  | Err k => (Err k, w)
  | Panic => (Panic, w)
  | Diverge => (Diverge, w)
  end.

(** src/tls.rs:115-156 [write_record] *)
Definition write_record (m : mode) (r : record) : M writer unit :=
  do* frag := protect r in
  if ENC_RECORD_MAX_LEN <? zlen frag then mfail Panic else
  do* _ := write_all [z2b (content_type_code (rc_type r))] in
  do* _ := write_all [rc_major r] in
  do* _ := write_all [rc_minor r] in
  do* _ := write_all (be 2 (zlen frag)) in
  do* _ := write_all frag in
  w_bump m.

(** src/tls.rs:158-168 [write_data] *)
Fixpoint write_fragments (m : mode) (t : content_type) (fs : list bytes) : M writer unit :=
  match fs with
  | [] => mret tt
  | f :: fs' =>
      do* r := mlift (record_new t (fst tls_version) (snd tls_version) f) in
      do* _ := write_record m r in
      write_fragments m t fs'
  end.
(** src/tls.rs:158-168 [write_data] *)
Definition write_data (m : mode) (t : content_type) (data : bytes) : M writer unit :=
  write_fragments m t (chunks (Z.to_nat RECORD_MAX_LEN) data).

(** src/tls.rs:170-174 *)
Definition write_handshake (m : mode) (h : handshake) : M writer unit :=
  do* data := mlift (tls_write i_handshake h) in write_data m HandshakeTy data.
(** src/tls.rs:176-180 *)
Definition write_alert (m : mode) (a : alert) : M writer unit :=
  do* data := mlift (tls_write i_alert a) in write_data m AlertTy data.
(** src/tls.rs:182-184 *)
Definition write_change_cipher_spec (m : mode) : M writer unit := write_data m ChangeCipherSpecTy [x01].
(** src/tls.rs:186-191 *)
Definition write_application_data (m : mode) (data : bytes) : M writer unit := fun w =>
  match w_enc w with
  | None => (Panic, w)
  | Some _ => write_data m ApplicationDataTy data w
  end.

(** ** Reader *)

(** src/tls.rs:195-200 [Message] *)
Inductive message :=
| HandshakeMessage (h : handshake)
| ChangeCipherSpecMessage
| AlertMessage (a : alert)
| ApplicationDataMessage (d : bytes).

(** src/tls.rs:202-209 [TlsReader] *)
Record reader := Reader {
  r_src : src; r_dec : option decryptor; r_count : Z; r_buf : bytes; r_iv : option bytes }.
(** src/tls.rs:214-222 *)
Definition reader_new (s : src) : reader := Reader s None 0 hb_new None.

(** src/tls.rs:231-235 *)
Definition r_set_decryptor (d : decryptor) : M reader unit := fun r =>
  match r_dec r with
  | Some _ => (Panic, r)
  | None => (Ok tt, Reader (r_src r) (Some d) 0 (r_buf r) (r_iv r))
  end.
(** src/tls.rs:239-242 *)
Definition r_set_iv (iv : bytes) : M reader unit := fun r =>
  match r_iv r with
  | Some _ => (Panic, r)
  | None => (Ok tt, Reader (r_src r) (r_dec r) (r_count r) (r_buf r) (Some iv))
  end.

(** [ReadExt::read_u8], [read_be_u16], [read_exact] on the transport (src/util.rs:107-146) *)
Definition r_read (n : nat) : M reader bytes := fun r =>
  let (x, s) := fill_exact (r_src r) n in
  (x, Reader s (r_dec r) (r_count r) (r_buf r) (r_iv r)).

(** src/tls.rs:320 *)
Definition r_bump (m : mode) : M reader unit := fun r =>
  match ck m 64 (r_count r + 1) with
  | Ok c => (Ok tt, Reader (r_src r) (r_dec r) c (r_buf r) (r_iv r))
  | Err k => (Err k, r)
  | Panic => (Panic, r)
  | Diverge => (Diverge, r)
  end.

(** src/tls.rs:270-318: from the fragment read to the record returned *)
Definition unprotect (t : content_type) (maj min : byte) (fragment : bytes) (r : reader) : res record :=
  match r_dec r with
  | None =>
      if RECORD_MAX_LEN <? zlen fragment then Err RecordOverflow
      else record_new t maj min fragment
  | Some d =>
      let total_len := zlen fragment in
      if total_len <? dc_mac_len d then Err BadRecordMac
      else
        let ad := seq_ad (r_count r) t maj min (total_len - dc_mac_len d) in
        let nonce := seq_nonce (r_count r) (r_iv r) in
        let* data := dc_decrypt d nonce fragment ad in
        if RECORD_MAX_LEN <? zlen data then Panic
        else record_new t maj min data
  end.

(** src/tls.rs:247-323 [read_record] *)
Definition read_record (m : mode) : M reader record :=
  do* ty := r_read 1 in
  match from_code content_type_code content_type_all (be_val ty) with
  | None => mfail (Err UnexpectedMessage)
  | Some t =>
      do* maj := r_read 1 in
      do* min := r_read 1 in
      do* len := r_read 2 in
      if ENC_RECORD_MAX_LEN <? be_val len then mfail (Err RecordOverflow) else
      do* fragment := r_read (Z.to_nat (be_val len)) in
      do* rec := (fun r => (unprotect t (hd x00 maj) (hd x00 min) fragment r, r)) in
      do* _ := r_bump m in
      mret rec
  end.

(** [self.handshake_buffer.get_message()], [add_record] (src/tls.rs:337, 381, 383) *)
Definition r_get_message : M reader (option handshake) := fun r =>
  let (x, b) := get_message (r_buf r) in
  (x, Reader (r_src r) (r_dec r) (r_count r) b (r_iv r)).
(** src/tls.rs:381 *)
Definition r_add_record (f : bytes) : M reader unit := fun r =>
  (Ok tt, Reader (r_src r) (r_dec r) (r_count r) (add_record (r_buf r) f) (r_iv r)).

(** src/tls.rs:347-390: what one record leads to; [None] means the loop continues *)
Definition handle_record (rec : record) : M reader (option message) :=
  match rc_type rec with
  | ChangeCipherSpecTy =>
      match rc_fragment rec with
      | [b] => if b2z b =? 1 then mret (Some ChangeCipherSpecMessage) else mfail (Err UnexpectedMessage)
      | _ => mfail (Err UnexpectedMessage)
      end
  | AlertTy =>
      match rc_fragment rec with
      | l :: d :: _ =>
          match from_code alert_level_code alert_level_all (b2z l),
                from_code alert_desc_code alert_desc_all (b2z d) with
          | Some level, Some desc => mret (Some (AlertMessage (Alert level desc)))
          | _, _ => mfail (Err UnexpectedMessage)
          end
      | _ => mfail (Err UnexpectedMessage)
      end
  | HandshakeTy =>
      match rc_fragment rec with
      | [] => mfail (Err UnexpectedMessage)
      | _ =>
          do* _ := r_add_record (rc_fragment rec) in
          do* o := r_get_message in
          mret (option_map HandshakeMessage o)
      end
  | ApplicationDataTy => mret (Some (ApplicationDataMessage (rc_fragment rec)))
  end.

(** src/tls.rs:342-391, the [loop]; the fuel is proved sufficient in [P_Record.v] *)
Fixpoint read_message_loop (m : mode) (fuel : nat) : M reader message :=
  match fuel with
  | O => mfail Diverge
  | S f =>
      do* rec := read_record m in
      do* o := handle_record rec in
      match o with Some msg => mret msg | None => read_message_loop m f end
  end.

(** bytes the transport still holds: fuel for the loop of src/tls.rs:342-391 *)
Definition src_size (s : src) : nat :=
  fold_right (fun e n => match e with RData bs => (length bs + n)%nat | RErr => n end) 0%nat s.

(** src/tls.rs:336-392 [read_message] *)
Definition read_message (m : mode) : M reader message := fun r =>
  (do* o := r_get_message in
   match o with
   | Some h => mret (HandshakeMessage h)
   | None => read_message_loop m (S (src_size (r_src r)))
   end) r.

(** src/tls.rs:394-412 [read_application_data]: every branch of the [loop] leaves it *)
Definition read_application_data (m : mode) : M reader bytes := fun r =>
  match r_dec r with
  | None => (Panic, r)
  | Some _ =>
      (do* msg := read_message m in
       match msg with
       | ApplicationDataMessage d => mret d
       | AlertMessage (Alert _ AD_close_notify) => mret []
       | AlertMessage _ | ChangeCipherSpecMessage | HandshakeMessage _ => mfail Panic
       end) r
  end.

(** src/tls.rs:414-420 [read_handshake] *)
Definition read_handshake (m : mode) : M reader handshake :=
  do* msg := read_message m in
  match msg with
  | HandshakeMessage h => mret h
  | AlertMessage _ => mfail (Err AlertReceived)
  | _ => mfail (Err UnexpectedMessage)
  end.

(** src/tls.rs:422-430 [read_change_cipher_spec] *)
Definition read_change_cipher_spec (m : mode) : M reader unit :=
  do* msg := read_message m in
  match msg with
  | ChangeCipherSpecMessage => mret tt
  | _ => mfail (Err UnexpectedMessage)
  end.
