(** C91: what construction answers and sends, for every stream of bytes. *)
From Verif Require Import Spec_Build P_Util P_Codec P_Client3 P_Client4 P_Accept P_Receive P_Build.
From Coq Require Import ZifyBool ZifyNat ZifyN.
Local Open Scope list_scope.
Local Open Scope Z_scope.

(** on a working transport, the result of [TlsClient::new] and the bytes it sends are exactly those of the description [building] *)
Theorem C91_construction : forall m s p g x out, healthy (writer_new p) -> clean s -> zlen (stream s) < 2 ^ 64 ->
  ((exists c, client_new m s p g = (x, c) /\ w_out (c_writer c) = out) <-> exists st, building m g (stream s) x st /\ out = all_sent x st).
Proof. exact building_iff. Qed.
Print Assumptions C91_construction.
(** which has an answer for every stream, *)
Theorem C91_some : forall m g bs, zlen bs < 2 ^ 64 -> exists x st, building m g bs x st.
Proof. exact building_total. Qed.
Print Assumptions C91_some.
(** and only one *)
Theorem C91_one : forall m g bs x st x' st', zlen bs < 2 ^ 64 -> building m g bs x st -> building m g bs x' st' -> x = x' /\ st = st'.
Proof. exact building_once. Qed.
Print Assumptions C91_one.
(** the stage of the description is the one the run has reached *)
Theorem C91_stage : forall m s p g x st, healthy (writer_new p) -> clean s -> zlen (stream s) < 2 ^ 64 -> building m g (stream s) x st ->
  stage_at m s g st /\ exists c, client_new m s p g = (x, c) /\ w_out (c_writer c) = all_sent x st.
Proof. exact building_sound. Qed.
Print Assumptions C91_stage.
(** the description answers [Ok] for the streams of C89 and for no others *)
Theorem C91_connects : forall m g bs, zlen bs + 1 < 2 ^ 64 -> ((exists st, building m g bs (Ok tt) st) <-> exists ss n extra rest, connecting m g ss bs n extra rest).
Proof. exact building_connects. Qed.
Print Assumptions C91_connects.
(** an accepted first flight is accepted whatever follows it *)
Theorem C91_first_flight : forall m g bs ss pend rest, passes m g bs ss pend rest -> exists before, bs = before ++ rest /\ forall b2, passes m g (before ++ b2) ss pend b2.
Proof. exact passes_rest. Qed.
Print Assumptions C91_first_flight.

(** nothing; a byte that begins no record; an alert; a HelloRequest; data in the middle of a message; no random bytes *)
Example ex_early : forall m, let cr := firstn 32 one_tape in
  building m one_tape [] (Err IoFailure) (Hello cr) /\ building m one_tape [xff] (Err UnexpectedMessage) (Hello cr) /\
  building m one_tape (wire AlertTy x03 x03 [x02; x28]) (Err AlertReceived) (Hello cr) /\
  building m one_tape (wire HandshakeTy x03 x03 [x00; x00; x00; x00]) (Err UnexpectedMessage) (Hello cr) /\
  building m one_tape (wire HandshakeTy x03 x03 [x00] ++ wire ApplicationDataTy x03 x03 []) (Err UnexpectedMessage) (Hello cr) /\
  building m [] [] Panic Nothing.
Proof. exact early_run. Qed.
(** after the first flight: nothing; an alert; a wrong ChangeCipherSpec; a record without a tag for the Finished *)
Example ex_late : forall m, exists ss before,
  building m one_tape before (Err IoFailure) (Complete ss) /\
  building m one_tape (before ++ wire AlertTy x03 x03 [x02; x28]) (Err UnexpectedMessage) (Complete ss) /\
  building m one_tape (before ++ wire ChangeCipherSpecTy x03 x03 [x02]) (Err UnexpectedMessage) (Complete ss) /\
  building m one_tape (before ++ wire ChangeCipherSpecTy x03 x03 [x01] ++ wire HandshakeTy x03 x03 []) (Err BadRecordMac) (Complete ss).
Proof. exact ends_run. Qed.
(** what is sent: the ClientHello alone after a failed transport, then also the alert *)
Example ex_sent : forall cr, all_sent (Err IoFailure) (Hello cr) = flight_hello cr /\
  all_sent (Err UnexpectedMessage) (Hello cr) = flight_hello cr ++ [x15; x03; x03; x00; x02; x02; x0a].
Proof. intros cr. split; [apply app_nil_r|reflexivity]. Qed.
