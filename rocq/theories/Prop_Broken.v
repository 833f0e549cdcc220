(** C95: transports whose reads fail, or give nothing, and go on afterwards. *)
From Verif Require Import Spec_Broken P_Util P_Codec P_Client3 P_Client4 P_Accept P_Receive P_Build P_Life P_Broken.
From Coq Require Import ZifyBool ZifyNat ZifyN.
Local Open Scope list_scope.
Local Open Scope Z_scope.

(** for every behaviour of the transport's reads, the outcome of construction, the answers to all calls of any application, and the bytes sent, are exactly those of the description *)
Theorem C95_session : forall m q s p g x l out, healthy (writer_new p) -> zlen (concat (stretches s)) + 1 < 2 ^ 64 -> 1 + spent q l < 2 ^ 64 ->
  ((exists c, sitting m q s p g = (x, l, c) /\ w_out (c_writer c) = out) <-> lifespan m g q (stretches s) x l out).
Proof. exact lifespan_iff. Qed.
Print Assumptions C95_session.
(** the same from any point of a connection on *)
Theorem C95_from_here : forall m ks ivs kc ivc q c buf k pend bs j l out,
  standing m c ks ivs buf k pend bs /\ k + zlen (concat bs) < 2 ^ 64 /\ keyed_w m (c_writer c) kc ivc j /\ healthy (c_writer c) -> j + spent q l < 2 ^ 64 ->
  ((exists c', use m q c = (l, c') /\ w_out (c_writer c') = w_out (c_writer c) ++ out) <-> career ks ivs kc ivc q buf k pend bs j l out).
Proof. exact career_iff. Qed.
Print Assumptions C95_from_here.
(** of one call of [read], and of one call of [read_application_data], with what is left *)
Theorem C95_read : forall m c key iv n buf k pend x buf' k' pend' bs' bs, standing m c key iv buf k pend bs -> k + zlen (concat bs) < 2 ^ 64 ->
  (hauls key iv n buf k pend bs x buf' k' pend' bs' <-> exists c', client_read m n c = (x, c') /\ standing m c' key iv buf' k' pend' bs').
Proof. exact hauls_iff. Qed.
Print Assumptions C95_read.
Theorem C95_receive : forall m r key iv k pend x k' pend' l' l, placed m r key iv k pend l -> k + zlen (concat l) < 2 ^ 64 ->
  (catches key iv k pend l x k' pend' l' <-> exists r', read_application_data m r = (x, r') /\ placed m r' key iv k' pend' l').
Proof. exact catches_iff. Qed.
Print Assumptions C95_receive.
(** there is one answer *)
Theorem C95_one : forall key iv k pend l, length key = 32%nat -> length iv = 12%nat -> l <> [] -> 0 <= k -> k + zlen (concat l) < 2 ^ 64 ->
  exists x k' pend' l', catches key iv k pend l x k' pend' l' /\
    forall y k2 pend2 l2, catches key iv k pend l y k2 pend2 l2 -> y = x /\ k2 = k' /\ pend2 = pend' /\ l2 = l'.
Proof. exact catches_one. Qed.
Print Assumptions C95_one.
(** on a transport that does not fail it is that of C90 *)
Theorem C95_unbroken : forall key iv k pend b x k' pend' b', length key = 32%nat -> length iv = 12%nat -> 0 <= k -> k + zlen b < 2 ^ 64 ->
  (catches key iv k pend [b] x k' pend' [b'] <-> receive key iv k pend b x k' pend' b').
Proof. exact catches_clean. Qed.
Print Assumptions C95_unbroken.
(** a failure between two records loses nothing *)
Theorem C95_between : forall m r key iv k pend b l, placed m r key iv k pend ([] :: b :: l) -> k < 2 ^ 64 -> incomplete pend ->
  exists r', read_application_data m r = (Err IoFailure, r') /\ placed m r' key iv k pend (b :: l).
Proof. exact boundary_kept. Qed.
Print Assumptions C95_between.
(** but [read] answers with no data, as at the end, though there is more *)
Theorem C95_pause : forall m c key iv k pend b l n, standing m c key iv [] k pend ([] :: b :: l) -> k < 2 ^ 64 -> incomplete pend -> (0 < n)%nat ->
  exists c', client_read m n c = (Ok [], c') /\ standing m c' key iv [] k pend (b :: l).
Proof. exact pause_read. Qed.
Print Assumptions C95_pause.
(** in the middle of a record, the part that was read is lost, and reading goes on in the middle of the record *)
Theorem C95_within : forall m r key iv k pend b l, placed m r key iv k pend (b :: l) -> k + zlen b < 2 ^ 64 -> incomplete pend -> cut_record b ->
  exists r', read_application_data m r = (Err IoFailure, r') /\ placed m r' key iv k pend (onward l).
Proof. exact cut_lost. Qed.
Print Assumptions C95_within.
(** so reading cannot be taken up again: the data of a record that is cut before its last byte never comes, however often one tries *)
Theorem C95_never : forall m c key iv k pend t maj min f z n,
  standing m c key iv [] k pend [removelast (wire t maj min (f ++ [z])); [z]] -> zlen (f ++ [z]) <= 18432 -> k + zlen f + 16 < 2 ^ 64 -> incomplete pend -> (0 < n)%nat ->
  forall j, Forall (eq (Ok [])) (tries m n j c).
Proof. exact never_again. Qed.
Print Assumptions C95_never.
Theorem C95_retry_refuted : exists m n c c' b z d key iv k pend, standing m c key iv [] k pend [b ++ [z]] /\ standing m c' key iv [] k pend [b; [z]] /\ incomplete pend /\ d <> [] /\
  (exists c1, client_read m n c = (Ok d, c1)) /\ forall j, Forall (eq (Ok [])) (tries m n j c').
Proof. exact retry_fails. Qed.
Print Assumptions C95_retry_refuted.

(** a pause after the handshake: one read gives nothing, the next one the data *)
Example ex_patient : forall m, exists bs ss, lifespan m one_tape (Do (Read 4) (fun _ => Do (Read 2) (fun _ => Quit)))
  [bs; sealed_record (k_server (s_keys ss)) (iv_server (s_keys ss)) 2 ApplicationDataTy [x61; x62]] (Ok tt) [Got (Ok []); Got (Ok [x61; x62])] (stage_out (Complete ss)).
Proof. exact patient_run. Qed.
Example ex_stretches : stretches [RData [x61]; RData [x62]; RErr; RData []; RData [x63]] = [[x61; x62]; []; [x63]]. Proof. reflexivity. Qed.
Example ex_placed : placed Debug (Reader [RErr; RData [x17; x03]] (Some (new_decryptor Debug (repeat x00 32))) 7 [x01] (Some (repeat x00 12))) (repeat x00 32) (repeat x00 12) 7 [x01] [[]; [x17; x03]].
Proof. split; [|split; reflexivity]. repeat split; cbv; discriminate. Qed.
Example ex_tries : tries Release 3 2 (Client (Reader [RErr; RErr] (Some (new_decryptor Release (repeat x00 32))) 0 [] (Some (repeat x00 12))) (writer_new []) [] [x61; x62]) = [Ok [x61; x62]; Ok []].
Proof. reflexivity. Qed.
