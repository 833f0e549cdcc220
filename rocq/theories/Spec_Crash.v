(** Specification vocabulary for C109: when construction panics, from the bytes the server sends and the random bytes. *)
From Verif Require Export Spec_Build Spec_Decode256.

(** the server's messages are accepted up to a ServerKeyExchange with the point (x, y) *)
Definition sends_point (bs : bytes) (x y : Z) : Prop :=
  exists sh certs k more pend rest, given bs sh certs (e_ske k ++ more) pend rest /\ wf_ske k /\ ske_public k = enc x y /\ 0 <= x < 2 ^ 256 /\ 0 <= y < 2 ^ 256.
(** among the records under the server's key that the client looks into, with [pend] kept from earlier ones, one holds more
    than 2^14 bytes, and those before it hold pieces of one handshake message *)
Inductive bursts (key iv : bytes) : Z -> bytes -> bytes -> Prop :=
| Burst k t maj min p f pend rest : incomplete pend -> zlen f <= 18432 -> protects key iv k t maj min p f -> 16384 < zlen p ->
    bursts key iv k pend (wire t maj min f ++ rest)
| Burst_later k maj min p f pend rest : incomplete pend -> zlen f <= 18432 -> protects key iv k HandshakeTy maj min p f -> 0 < zlen p <= 16384 ->
    bursts key iv (k + 1) (pend ++ p) rest -> bursts key iv k pend (wire HandshakeTy maj min f ++ rest).
(** no random bytes for the ClientHello; none for a secret to go with the server's point; an overflow in the sums that check the
    point; an over-long record from the holder of the keys in place of the Finished *)
Inductive breaks_down (m : mode) (g : rng) (bs : bytes) : Prop :=
| Crash_hello : (length g < 32)%nat -> breaks_down m g bs
| Crash_secret x y : (32 <= length g)%nat -> sends_point bs x y -> welcome x y -> (m = Debug -> ~ overstepping x) -> ~ enough_randomness (skipn 32 g) -> breaks_down m g bs
| Crash_point x y : (32 <= length g)%nat -> sends_point bs x y -> m = Debug -> overstepping x -> breaks_down m g bs
| Crash_record ss pend rest p1 b1 : passes m g bs ss pend rest -> comes Clear pend rest (Ok ChangeCipherSpecMessage) Clear p1 b1 ->
    bursts (k_server (s_keys ss)) (iv_server (s_keys ss)) 0 p1 b1 -> breaks_down m g bs.
(** the one place where the two builds part *)
Definition parting (g : rng) (bs : bytes) : Prop := (32 <= length g)%nat /\ exists x y, sends_point bs x y /\ overstepping x.
