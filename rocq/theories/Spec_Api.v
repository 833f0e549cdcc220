(** Everything a program can call on a connected client: the methods of [TlsClient] (src/client.rs), those of its
    public fields [reader], [writer] and [rng] (src/client.rs:20-22, methods of src/tls.rs), and the two transports
    behind [reader()] and [writer()] (src/client.rs:43-51). *)
From Verif Require Export Spec_Client.

(** public methods of [TlsReader], src/tls.rs:231-242, 336-430 *)
Inductive rop := R_message | R_application | R_handshake | R_ccs | R_set_decryptor (d : decryptor) | R_set_iv (iv : bytes).
Inductive api :=
| A_read (n : nat) | A_write (buf : bytes) | A_write_all (buf : bytes) | A_flush | A_close | A_alert (k : errkind)
| A_writer (o : wop)                       (* client.writer.<method>(..) with a record made by Record::new *)
| A_record (r : record)                    (* client.writer.write_record(Record { .. }): the fields are public *)
| A_reader (o : rop)                       (* client.reader.<method>(..) *)
| A_raw_write (bs : bytes)                 (* client.writer().write_all(..): past the TLS layer *)
| A_raw_read (n : nat)                     (* client.reader().read_exact(..) *)
| A_rng (n : nat).                         (* client.rng.fill_bytes(..) *)
Inductive value := V_done | V_bytes (b : bytes) | V_count (n : Z) | V_error (k : errkind) | V_message (msg : message) | V_handshake (h : handshake).

Definition fmap {S A B} (f : A -> B) (a : M S A) : M S B := do* x := a in mret (f x).
Definition do_rop (m : mode) (o : rop) : M reader value :=
  match o with
  | R_message => fmap V_message (read_message m)
  | R_application => fmap V_bytes (read_application_data m)
  | R_handshake => fmap V_handshake (read_handshake m)
  | R_ccs => fmap (fun _ => V_done) (read_change_cipher_spec m)
  | R_set_decryptor d => fmap (fun _ => V_done) (r_set_decryptor d)
  | R_set_iv iv => fmap (fun _ => V_done) (r_set_iv iv)
  end.
Definition do_api (m : mode) (o : api) : M client value :=
  match o with
  | A_read n => fmap V_bytes (client_read m n)
  | A_write buf => fmap V_count (client_write m buf)
  | A_write_all buf => fmap (fun _ => V_done) (client_write_all m buf)
  | A_flush => fmap (fun _ => V_done) client_flush
  | A_close => fmap (fun _ => V_done) (client_close m)
  | A_alert k => fmap V_error (send_tls_alert m k)
  | A_writer o => fmap (fun _ => V_done) (on_writer (run_op m o))
  | A_record r => fmap (fun _ => V_done) (on_writer (write_record m r))
  | A_reader o => on_reader (do_rop m o)
  | A_raw_write bs => fmap (fun _ => V_done) (on_writer (write_all bs))
  | A_raw_read n => fmap V_bytes (on_reader (r_read n))
  | A_rng n => fmap V_bytes (on_rng (rng_fill n))
  end.
(** the caller may go on after an error; a panic ends the history *)
Fixpoint api_run (m : mode) (l : list api) (c : client) : list (res value) * client :=
  match l with
  | [] => ([], c)
  | o :: l' =>
      match do_api m o c with
      | (Panic, c') => ([Panic], c')
      | (Diverge, c') => ([Diverge], c')
      | (x, c') => let (xs, c'') := api_run m l' c' in (x :: xs, c'')
      end
  end.

(** which of the three parts of the client a call works on *)
Inductive side := Reading | Writing | Drawing.
Definition side_of (o : api) : side :=
  match o with
  | A_read _ | A_reader _ | A_raw_read _ => Reading
  | A_rng _ => Drawing
  | _ => Writing
  end.
Scheme Equality for side.
Definition on_side (d : side) (o : api) : bool := side_beq (side_of o) d.
(** the answers to the calls of one part, in order *)
Definition answers_of (d : side) (l : list api) (xs : list (res value)) : list (res value) :=
  map snd (filter (fun p => on_side d (fst p)) (combine l xs)).
(** a part of the client's state *)
Definition part_of (d : side) (c : client) : reader * bytes + writer + rng :=
  match d with Reading => inl (inl (c_reader c, c_buf c)) | Writing => inl (inr (c_writer c)) | Drawing => inr (c_rng c) end.

(** replacing keys *)
Definition rekeys (o : api) : bool :=
  match o with
  | A_writer (OpSetEncryptor _) | A_writer (OpSetIv _) | A_reader (R_set_decryptor _) | A_reader (R_set_iv _) => true
  | _ => false
  end.
(** what a history pushes past the TLS layer *)
Definition raw_in (l : list api) (bs : bytes) : Prop := In (A_raw_write bs) l.
(** a piece of the output: a sealed record of the log (cut short by a transport error at most), or bytes pushed past the TLS layer *)
Definition piece_of (l : list api) (log : list (bytes * bytes * bytes * bytes)) (piece : bytes) : Prop :=
  sealed_piece log piece \/ exists bs cut, raw_in l bs /\ piece ++ cut = bs.
(** calls within the limits of the writer: no new keys, records short enough, encodable handshake messages *)
Definition legal_call (o : api) : Prop :=
  match o with
  | A_writer (OpRecord _ _ _ f) => zlen f <= 16384
  | A_writer (OpHandshake h) => wf_handshake h
  | A_writer (OpSetEncryptor _) | A_writer (OpSetIv _) | A_reader (R_set_decryptor _) | A_reader (R_set_iv _) => False
  | A_record r => zlen (rc_fragment r) <= 16384 + 2048 - 16
  | _ => True
  end.
(** an upper bound on the number of records a call sends *)
Definition wop_cost (o : wop) : Z :=
  match o with
  | OpRecord _ _ _ _ | OpCcs => 1
  | OpData _ d | OpApp d => zlen d
  | OpHandshake h => zlen (e_handshake h)
  | OpAlert _ => 2
  | OpSetEncryptor _ | OpSetIv _ => 0
  end.
Definition call_cost (o : api) : Z :=
  match o with
  | A_write buf | A_write_all buf => zlen buf + 2
  | A_close | A_alert _ => 2
  | A_writer o => wop_cost o
  | A_record _ => 1
  | _ => 0
  end.
Definition total_cost (l : list api) : Z := fold_right Z.add 0 (map call_cost l).
