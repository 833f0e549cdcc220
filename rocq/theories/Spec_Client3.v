(** More specification vocabulary for src/client.rs: how a connection ends. *)
From Verif Require Export Spec_Client2.

(** [d] handed out in pieces of at most the given sizes *)
Fixpoint pieces (sizes : list nat) (d : bytes) : list bytes :=
  match sizes with
  | [] => []
  | n :: sizes' => firstn n d :: pieces sizes' (skipn n d)
  end.
(** how the bytes after the last application data may end: anywhere inside a record (or before it), or with a
    close_notify alert sealed under number [k] *)
Inductive ending (key iv : bytes) (k : Z) : bytes -> Prop :=
| End_cut rest more t maj min f : rest ++ more = wire t maj min f -> more <> [] -> zlen f <= 2 ^ 14 + 2048 -> ending key iv k rest
| End_close l : ending key iv k (sealed_record key iv k AlertTy [z2b (rfc_alert_level l); x00]).
(** what the peer makes of a record of [renders] *)
Definition heard (i : content_type * bytes) : message :=
  match fst i with ApplicationDataTy => ApplicationDataMessage (snd i) | _ => AlertMessage (Alert AL_fatal AD_close_notify) end.
(** the peer's side, run with the same record layer on transport [t]: two handshake messages, the
    ChangeCipherSpec, then under the client's keys the Finished, then the records [it], then the end *)
Definition hears (m : mode) (t : src) (ss : session) (it : list (content_type * bytes)) : Prop :=
  exists r1 r2 r3 r4 r5 r6,
    reads (read_handshake m) 2 (reader_new t) = ([Ok (offer (s_cr ss)); Ok (client_key_exchange (s_cke ss))], r1) /\
    read_change_cipher_spec m r1 = (Ok tt, r2) /\ r_set_iv (iv_client (s_keys ss)) r2 = (Ok tt, r3) /\
    r_set_decryptor (new_decryptor m (k_client (s_keys ss))) r3 = (Ok tt, r4) /\
    read_handshake m r4 = (Ok (s_client_fin ss), r5) /\
    reads (read_message m) (length it) r5 = (map Ok (map heard it), r6) /\ fst (read_message m r6) = Err IoFailure.
(** the data written by a history of calls *)
Definition written (l : list call) : bytes := concat (map (fun o => match o with Write buf => buf | _ => [] end) l).
Definition app_data (msgs : list message) : bytes := concat (map (fun x => match x with ApplicationDataMessage d => d | _ => [] end) msgs).
