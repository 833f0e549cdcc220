(** Who is to blame when a reading call panics: records sealed with the server's key. *)
From Verif Require Export Spec_Api.

(** calls that ask for application data *)
Definition wants_data (o : api) : bool := match o with A_read _ | A_reader R_application => true | _ => false end.
(** the four methods of [TlsReader] that read *)
Definition fetches (o : rop) : bool := match o with R_message | R_application | R_handshake | R_ccs => true | _ => false end.
(** in [s], a record sealed with more than 2^14 bytes *)
Definition overlong_in (s : src) (key iv : bytes) : Prop := exists k t p, 0 <= k /\ sealed_in s key iv k t p /\ 16384 < zlen p.
(** in [s], a sealed record that is not application data *)
Definition other_in (s : src) (key iv : bytes) : Prop := exists k t p, 0 <= k /\ sealed_in s key iv k t p /\ t <> ApplicationDataTy.
