(** Forged records, one after the other, where one genuine record was due. *)
From Verif Require Export Spec_Client4 Spec_Forge.

(** a record in place of another: type, version, fragment *)
Record bogus := Bogus { f_type : content_type; f_major : byte; f_minor : byte; f_body : bytes }.
Definition on_wire (a : bogus) : bytes := wire (f_type a) (f_major a) (f_minor a) (f_body a).
(** one of the first [n] calls of [read_record] is answered otherwise than by [BadRecordMac] *)
Fixpoint beaten (m : mode) (n : nat) (r : reader) : Prop :=
  match n with
  | O => False
  | S n => match read_record m r with (Err BadRecordMac, r') => beaten m n r' | _ => True end
  end.
(** the one-time key of record number [k] *)
Definition one_time (k : Z) (c : bytes * bytes) : bytes := poly_key_gen (fst c) (rfc_nonce (snd c) k).
(** calls of [read] with these buffers, each of which is not empty, and each returns zero bytes *)
Inductive vain (m : mode) : list nat -> client -> client -> Prop :=
| Vain_end c : vain m [] c c
| Vain_more n ns c c1 c2 : client_read m (S n) c = (Ok [], c1) -> vain m ns c1 c2 -> vain m (n :: ns) c c2.
(** one of them returns something else *)
Fixpoint gains (m : mode) (ns : list nat) (c : client) : Prop :=
  match ns with
  | [] => False
  | n :: ns => match client_read m (S n) c with (Ok [], c') => gains m ns c' | _ => True end
  end.
