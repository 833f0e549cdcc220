(** Specification vocabulary for C114: clients that get what clients send. *)
From Verif Require Export Spec_Build Spec_Api Spec_Origin.
Local Open Scope list_scope.
Local Open Scope Z_scope.

(** the record of a ClientHello: 5 and 4 bytes of headers, 65 of contents *)
Definition hello_size : Z := 5 + 4 + 65.
(** all a client sends: until its construction ends and, if it succeeds, in the calls [l] made afterwards *)
Definition client_says (m : mode) (s : src) (p : list wevent) (g : rng) (l : list api) : bytes :=
  match client_new m s p g with (Ok tt, c) => w_out (c_writer (snd (api_run m l c))) | (_, c) => w_out (c_writer c) end.
(** one ciphertext, sealed under two keys *)
Definition two_seals (key iv : bytes) (k : Z) (key' iv' : bytes) (k' : Z) (t : content_type) (p q : bytes) : Prop :=
  zlen p = zlen q /\
  aead_seal key (rfc_nonce iv k) (rfc_ad k t x03 x03 (zlen p)) p = aead_seal key' (rfc_nonce iv' k') (rfc_ad k' t x03 x03 (zlen q)) q.
