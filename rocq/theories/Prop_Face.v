(** C114: clients that get what clients send. *)
From Verif Require Import Spec_Face P_Client4 P_Face P_Venture.
From Coq Require Import ZifyBool ZifyNat ZifyN.
Local Open Scope list_scope.
Local Open Scope Z_scope.

(** ** C114 *)
(** a client that gets what a client sends, itself or another, or any first part of it, is not connected: it reports an unexpected message and sends
    that alert, or if the ClientHello has not come whole the end of the transport *)
Theorem C114_refused : forall m s p g m' s' p' g' l r, healthy (writer_new p) -> clean s -> zlen (stream s) < 2 ^ 64 -> (32 <= length g)%nat ->
  healthy (writer_new p') -> clean s' -> zlen (stream s') < 2 ^ 64 -> (32 <= length g')%nat -> client_says m' s' p' g' l = stream s ++ r ->
  exists c, client_new m s p g = (Err (if hello_size <=? zlen (stream s) then UnexpectedMessage else IoFailure), c) /\
    w_out (c_writer c) = flight_hello (firstn 32 g) ++ (if hello_size <=? zlen (stream s) then e_record AlertTy [x02; x0a] else []).
Proof. exact client_to_client. Qed.
Print Assumptions C114_refused.
(** two clients joined to each other: neither is connected, and neither gets more than a ClientHello and an alert *)
Theorem C114_two_clients : forall m s p g l m' s' p' g' l' r r', healthy (writer_new p) -> clean s -> zlen (stream s) < 2 ^ 64 -> (32 <= length g)%nat ->
  healthy (writer_new p') -> clean s' -> zlen (stream s') < 2 ^ 64 -> (32 <= length g')%nat ->
  client_says m' s' p' g' l' = stream s ++ r -> client_says m s p g l = stream s' ++ r' ->
  fst (client_new m s p g) <> Ok tt /\ fst (client_new m' s' p' g') <> Ok tt /\ zlen (stream s) <= hello_size + 7 /\ zlen (stream s') <= hello_size + 7.
Proof. exact two_clients. Qed.
Print Assumptions C114_two_clients.
(** on transports that fail: what is sent is a first part of that, and the error may be that of the transport *)
Theorem C114_refused_any : forall m s p g m' s' p' g' l r, zlen (stream s) < 2 ^ 64 -> (32 <= length g)%nat ->
  zlen (stream s') < 2 ^ 64 -> (32 <= length g')%nat -> client_says m' s' p' g' l = stream s ++ r ->
  exists e c unsent, client_new m s p g = (Err e, c) /\ (e = UnexpectedMessage /\ unsent = [] \/ e = IoFailure) /\
    flight_hello (firstn 32 g) ++ (if hello_size <=? zlen (stream s) then e_record AlertTy [x02; x0a] else []) = w_out (c_writer c) ++ unsent.
Proof. exact client_to_client_any. Qed.
Print Assumptions C114_refused_any.
(** two clients on transports that fail *)
Theorem C114_two_clients_any : forall m s p g l m' s' p' g' l' r r', zlen (stream s) < 2 ^ 64 -> (32 <= length g)%nat -> zlen (stream s') < 2 ^ 64 -> (32 <= length g')%nat ->
  client_says m' s' p' g' l' = stream s ++ r -> client_says m s p g l = stream s' ++ r' ->
  fst (client_new m s p g) <> Ok tt /\ fst (client_new m' s' p' g') <> Ok tt /\ zlen (stream s) <= hello_size + 7 /\ zlen (stream s') <= hello_size + 7.
Proof. exact two_clients_any. Qed.
Print Assumptions C114_two_clients_any.
(** after the handshake, a record a client has sealed, this one or another, is refused by a client and takes no number; or it is a ciphertext of two
    keys, which are different but for a collision of the hash *)
Theorem C114_own_record : forall m mm s g ss mm' s' g' ss' r k j t p rest, reached mm s g (Complete ss) -> reached mm' s' g' (Complete ss') ->
  keyed m r (k_server (s_keys ss)) (iv_server (s_keys ss)) k -> k + 1 < 2 ^ 64 -> zlen p <= 16384 ->
  stream (r_src r) = sealed_record (k_client (s_keys ss')) (iv_client (s_keys ss')) j t p ++ rest ->
  (exists r', read_record m r = (Err BadRecordMac, r') /\ keyed m r' (k_server (s_keys ss)) (iv_server (s_keys ss)) k /\ stream (r_src r') = rest) \/
  (exists q, two_seals (k_server (s_keys ss)) (iv_server (s_keys ss)) k (k_client (s_keys ss')) (iv_client (s_keys ss')) j t q p /\
     (k_client (s_keys ss') <> k_server (s_keys ss) \/
      blocks_meet ss' 1 ss 2 \/ hmac_meets (s_master ss') (block_seed ss') (s_master ss) (A_ (s_master ss) (block_seed ss) 1))).
Proof. exact own_record. Qed.
Print Assumptions C114_own_record.

(** ** Examples *)
(** an echo: the client gets its own ClientHello and alert *)
Example ex_echo : forall m, exists s c, client_new m s [] one_tape = (Err UnexpectedMessage, c) /\ client_says m s [] one_tape [] = stream s /\ zlen (stream s) = hello_size + 7.
Proof.
  intros m. set (b := flight_hello (firstn 32 one_tape) ++ e_record AlertTy [x02; x0a]). assert (Lb : zlen b = hello_size + 7) by reflexivity.
  exists (source b). destruct (hello_back m (source b) [] one_tape (firstn 32 one_tape) [] (e_record AlertTy [x02; x0a])) as (c & E & O);
    [constructor|apply source_clean|rewrite source_stream, Lb; reflexivity|cbn; lia|reflexivity|rewrite source_stream, app_nil_r; reflexivity|].
  rewrite source_stream, Lb in E, O. exists c. split; [exact E|]. unfold client_says. rewrite E, O, source_stream. split; [reflexivity|exact Lb].
Qed.
(** two clients that face each other, each with all the other says *)
Example ex_joined : forall m, exists s s', client_says m s' [] one_tape [] = stream s /\ client_says m s [] one_tape [] = stream s' /\ zlen (stream s) = hello_size + 7.
Proof. intros m. destruct (ex_echo m) as (s & c & _ & E & L). exists s, s. auto. Qed.
(** a connected reader with a record of its own client before it *)
Example ex_own : forall m, exists s g ss r, reached m s g (Complete ss) /\ keyed m r (k_server (s_keys ss)) (iv_server (s_keys ss)) 1 /\
  stream (r_src r) = sealed_record (k_client (s_keys ss)) (iv_client (s_keys ss)) 1 ApplicationDataTy [x41] ++ [].
Proof.
  intros m. destruct (conforming_run m plain_server (fun ss => sealed_record (k_client (s_keys ss)) (iv_client (s_keys ss)) 1 ApplicationDataTy [x41] ++ []) plain_wf)
    as (s & ss & c & _ & _ & _ & R & K & _ & _ & _ & _ & S).
  exists s, one_tape, ss, (c_reader c). auto.
Qed.
(** a transport that fails: the ClientHello is cut after a byte, and that byte is given back *)
Example ex_cut_hello : forall m, exists s c, client_new m s [WFail 3] one_tape = (Err IoFailure, c) /\ w_out (c_writer c) = [x16] /\
  client_says m s [WFail 3] one_tape [] = [x16] /\ stream s = [].
Proof.
  intros m. pose proof (hello_lost m) as F. inversion F as [b more p x out N V|]; subst.
  destruct (proj2 (venture_iff m (source []) [WFail 3] one_tape _ _ ltac:(rewrite source_stream; reflexivity)) ltac:(rewrite source_stream; exact V)) as (c & E & O).
  exists (source []), c. split; [exact E|]. split; [exact O|]. split; [|apply source_stream]. unfold client_says. rewrite E. exact O.
Qed.
