(** C90: what reading gives, for every stream of bytes. *)
From Verif Require Import Spec_Receive P_Util P_Codec P_Client3 P_Client4 P_Accept P_Receive.
From Coq Require Import ZifyBool ZifyNat ZifyN.
Local Open Scope list_scope.
Local Open Scope Z_scope.

(** [read_application_data] gives exactly the answer of the description, and leaves exactly what it leaves *)
Theorem C90_receive : forall m r key iv k pend bs x k' pend' bs', poised m r key iv k pend bs -> k + zlen bs < 2 ^ 64 ->
  (receive key iv k pend bs x k' pend' bs' <-> exists r', read_application_data m r = (x, r') /\ poised m r' key iv k' pend' bs').
Proof. exact receive_iff. Qed.
Print Assumptions C90_receive.
(** [read] too *)
Theorem C90_read : forall m c key iv n buf k pend bs x buf' k' pend' bs', has m c key iv buf k pend bs -> k + zlen bs < 2 ^ 64 ->
  (filling key iv n buf k pend bs x buf' k' pend' bs' <-> exists c', client_read m n c = (x, c') /\ has m c' key iv buf' k' pend' bs').
Proof. exact filling_iff. Qed.
Print Assumptions C90_read.
(** [read] leaves the writer and the random numbers alone *)
Theorem C90_only_reads : forall m key iv n buf k pend bs x buf' k' pend' bs', filling key iv n buf k pend bs x buf' k' pend' bs' -> forall c,
  has m c key iv buf k pend bs -> k + zlen bs < 2 ^ 64 ->
  exists c', client_read m n c = (x, c') /\ has m c' key iv buf' k' pend' bs' /\ c_writer c' = c_writer c /\ c_rng c' = c_rng c.
Proof. exact filling_sound. Qed.
Print Assumptions C90_only_reads.

(** the description has an answer for every stream, and only one *)
Theorem C90_receive_one : forall key iv k pend bs, length key = 32%nat -> length iv = 12%nat -> 0 <= k -> k + zlen bs < 2 ^ 64 ->
  exists x k' pend' bs', receive key iv k pend bs x k' pend' bs' /\
    forall y k2 pend2 bs2, receive key iv k pend bs y k2 pend2 bs2 -> y = x /\ k2 = k' /\ pend2 = pend' /\ bs2 = bs'.
Proof. exact receive_one. Qed.
Print Assumptions C90_receive_one.
Theorem C90_read_one : forall key iv n buf k pend bs, length key = 32%nat -> length iv = 12%nat -> 0 <= k -> k + zlen bs < 2 ^ 64 ->
  exists x buf' k' pend' bs', filling key iv n buf k pend bs x buf' k' pend' bs' /\
    forall y buf2 k2 pend2 bs2, filling key iv n buf k pend bs y buf2 k2 pend2 bs2 -> y = x /\ buf2 = buf' /\ k2 = k' /\ pend2 = pend' /\ bs2 = bs'.
Proof. exact filling_one. Qed.
Print Assumptions C90_read_one.

(** with C89: what the first [read] after the handshake starts from *)
Theorem C90_connection : forall m s p g ss n extra rest, healthy (writer_new p) -> clean s -> zlen (stream s) < 2 ^ 64 -> connecting m g ss (stream s) n extra rest ->
  exists c, client_new m s p g = (Ok tt, c) /\ has m c (k_server (s_keys ss)) (iv_server (s_keys ss)) [] n extra rest /\ n + zlen rest < 2 ^ 64.
Proof. exact connection_reads. Qed.
Print Assumptions C90_connection.

(** two bytes of data, a close_notify that is not obeyed, a byte that begins no record and is skipped; the next [read] goes on *)
Example ex_reading : forall key iv, filling key iv 4 [x7a] 1 []
    (sealed_record key iv 1 ApplicationDataTy [x61; x62] ++ sealed_record key iv 2 AlertTy [x01; x00] ++ xff :: sealed_record key iv 3 ApplicationDataTy [x63])
    (Ok [x7a; x61; x62]) [] 3 [] (sealed_record key iv 3 ApplicationDataTy [x63]) /\
  filling key iv 1 [] 3 [] (sealed_record key iv 3 ApplicationDataTy [x63]) (Ok [x63]) [] 4 [] [].
Proof. exact reading_run. Qed.
(** a record without a tag; a HelloRequest in two records *)
Example ex_crashing : forall key iv bs, receive key iv 5 [] (wire AlertTy x03 x03 [] ++ bs) (Err BadRecordMac) 5 [] bs /\
  receive key iv 5 [] (sealed_record key iv 5 HandshakeTy [x00; x00] ++ sealed_record key iv 6 HandshakeTy [x00; x00] ++ bs) Panic 7 [] bs.
Proof. exact crashing_run. Qed.
(** a connected client about to read such a stream *)
Example ex_client : forall m, exists s c key iv, client_new m s [] one_tape = (Ok tt, c) /\
  has m c key iv [] 1 [] (sealed_record key iv 1 ApplicationDataTy [x61; x62] ++ sealed_record key iv 2 AlertTy [x01; x00] ++ xff :: sealed_record key iv 3 ApplicationDataTy [x63]).
Proof. exact reading_client. Qed.
