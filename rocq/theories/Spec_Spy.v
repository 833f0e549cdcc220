(** Specification vocabulary for C87: somebody who only sees the bytes on the wire. *)
From Verif Require Export Spec_Client2 Spec_Client3.

(** the client random and the ClientKeyExchange in the client's bytes: behind record header (5 bytes), handshake header (4) and
    version (2); behind the ClientHello record (74) and the next two headers *)
Definition random_seen (out : bytes) : bytes := firstn 32 (skipn 11 out).
Definition public_seen (out : bytes) : bytes := firstn 66 (skipn 83 out).
(** random bytes that make a client use the scalar [e] *)
Definition guess (e : Z) : rng :=
  le 32 (e mod 256 + 2 ^ 32 * (e / 256 mod 256) + 2 ^ 64 * (e / 256 ^ 2 mod 256) + 2 ^ 96 * (e / 256 ^ 3 mod 256) +
         2 ^ 128 * (e / 256 ^ 4 mod 256) + 2 ^ 160 * (e / 256 ^ 5 mod 256) + 2 ^ 192 * (e / 256 ^ 6 mod 256)).
(** the session a client with this guess would have had with the recorded server, if it shows the recorded public value *)
Definition matches (m : mode) (s : src) (out : bytes) (e : Z) (ss : session) : Prop :=
  0 <= e < 2 ^ 56 /\ reached m s (random_seen out ++ guess e) (Complete ss) /\ s_cke ss = public_seen out.
(** half of the 56 bits *)
Definition half : Z := 2 ^ 28.
