(** C109: exactly when construction panics, and exactly where the two builds part. *)
From Verif Require Import Spec_Crash P_Util P_Client4 P_Client5 P_Build P_Crash P_Crash2 P_Crash3 P_Venture.
From Coq Require Import ZifyBool ZifyNat ZifyN.
Local Open Scope list_scope.
Local Open Scope Z_scope.

(** ** C109 *)
(** from the server's bytes and the random bytes alone: construction panics in these four ways and in no other *)
Theorem C109_panics : forall m s p g, healthy (writer_new p) -> clean s -> zlen (stream s) < 2 ^ 64 -> (fst (client_new m s p g) = Panic <-> breaks_down m g (stream s)).
Proof. exact breaks_down_iff. Qed.
Print Assumptions C109_panics.
(** the builds part on a point whose check overflows: there the debug build panics with only its ClientHello sent; on every
    other stream they end alike and have sent the same bytes *)
Theorem C109_builds : forall s p g, healthy (writer_new p) -> clean s -> zlen (stream s) < 2 ^ 64 ->
  (parting g (stream s) /\ exists c, client_new Debug s p g = (Panic, c) /\ w_out (c_writer c) = flight_hello (firstn 32 g)) \/
  (~ parting g (stream s) /\ exists x c c', client_new Debug s p g = (x, c) /\ client_new Release s p g = (x, c') /\ w_out (c_writer c) = w_out (c_writer c')).
Proof. exact builds_part. Qed.
Print Assumptions C109_builds.
(** on any transport: unless it fails, and then construction reports that *)
Theorem C109_panics_any : forall m s p g, zlen (stream s) < 2 ^ 64 ->
  (fst (client_new m s p g) = Panic <-> breaks_down m g (stream s) /\ fst (client_new m s p g) <> Err IoFailure).
Proof. exact breaks_down_any. Qed.
Print Assumptions C109_panics_any.
(** the builds on any transport *)
Theorem C109_builds_any : forall s p g, zlen (stream s) < 2 ^ 64 ->
  (parting g (stream s) /\ (exists c, client_new Debug s p g = (Panic, c) /\ w_out (c_writer c) = flight_hello (firstn 32 g) \/
                                      client_new Debug s p g = (Err IoFailure, c) /\ exists unsent, flight_hello (firstn 32 g) = w_out (c_writer c) ++ unsent)) \/
  (~ parting g (stream s) /\ exists x c c', client_new Debug s p g = (x, c) /\ client_new Release s p g = (x, c') /\ w_out (c_writer c) = w_out (c_writer c')).
Proof. exact builds_part_any. Qed.
Print Assumptions C109_builds_any.
(** a stream holds at most one such point *)
Theorem C109_one_point : forall bs x y x' y', zlen bs < 2 ^ 64 -> sends_point bs x y -> sends_point bs x' y' -> x = x' /\ y = y'.
Proof. exact sends_once. Qed.
Print Assumptions C109_one_point.
(** what a panic in place of the Finished takes: an over-long record sealed with the server's key *)
Theorem C109_bursts : forall key iv k pend bs, bursts key iv k pend bs <-> exists v p b, comes (Sealed key iv k) pend bs Panic v p b.
Proof. exact bursts_iff. Qed.
Print Assumptions C109_bursts.
(** the builds do not always agree: on such a point the release build goes on to the next message *)
Theorem C109_agree_refuted : exists s g c c', clean s /\ client_new Debug s [] g = (Panic, c) /\ client_new Release s [] g = (Err IoFailure, c').
Proof. exact builds_disagree. Qed.
Print Assumptions C109_agree_refuted.

(** each way of panicking occurs *)
Example ex_hello : forall m bs, breaks_down m [] bs.
Proof. intros m bs. apply Crash_hello. cbn. lia. Qed.
Example ex_secret : forall m, exists g, length g = 32%nat /\ breaks_down m g (point_stream Gx Gy).
Proof. exact starved_run. Qed.
Example ex_point : exists bs, parting one_tape bs /\ zlen bs < 2 ^ 64 /\ building Release one_tape bs (Err IoFailure) (Hello (firstn 32 one_tape)).
Proof. exact parting_run. Qed.
Example ex_record : forall m, exists ss before, let p := repeat x00 (Z.to_nat 16385) in
  breaks_down m one_tape (before ++ wire ChangeCipherSpecTy x03 x03 [x01] ++
    wire HandshakeTy x03 x03 (aead_seal (k_server (s_keys ss)) (rfc_nonce (iv_server (s_keys ss)) 0) (rfc_ad 0 HandshakeTy x03 x03 16385) p)).
Proof. exact burst_run. Qed.
(** and a stream on which neither build panics *)
Example ex_none : forall m, ~ breaks_down m one_tape [].
Proof. exact quiet_run. Qed.
