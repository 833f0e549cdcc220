(** C112: where equal keys come from. *)
From Verif Require Import Spec_Api Spec_Origin P_Client4 P_Origin P_Origin2.
From Coq Require Import ZifyBool ZifyNat ZifyN.
Local Open Scope list_scope.
Local Open Scope Z_scope.

(** ** C112 *)
(** two handshakes with one master secret have the secret of the exchange and both randoms in common, or computing the master secrets meets a collision *)
Theorem C112_master : forall m m' s s' g g' ss ss', reached m s g (Complete ss) -> reached m' s' g' (Complete ss') ->
  s_master ss = s_master ss' -> same_origin ss ss' \/ masters_meet ss ss'.
Proof. exact equal_masters. Qed.
Print Assumptions C112_master.
(** the same for one key of the client, and for one key of the server *)
Theorem C112_client_keys : forall m m' s s' g g' ss ss', reached m s g (Complete ss) -> reached m' s' g' (Complete ss') ->
  k_client (s_keys ss) = k_client (s_keys ss') -> same_origin ss ss' \/ masters_meet ss ss' \/ blocks_meet ss 1 ss' 1.
Proof. exact equal_client_keys. Qed.
Print Assumptions C112_client_keys.
Theorem C112_server_keys : forall m m' s s' g g' ss ss', reached m s g (Complete ss) -> reached m' s' g' (Complete ss') ->
  k_server (s_keys ss) = k_server (s_keys ss') -> same_origin ss ss' \/ masters_meet ss ss' \/ blocks_meet ss 2 ss' 2.
Proof. exact equal_server_keys. Qed.
Print Assumptions C112_server_keys.
(** no key of a client is the key of a server, of the same handshake or of another, but for collisions *)
Theorem C112_directions : forall m m' s s' g g' ss ss', reached m s g (Complete ss) -> reached m' s' g' (Complete ss') ->
  k_client (s_keys ss) = k_server (s_keys ss') ->
  blocks_meet ss 1 ss' 2 \/ hmac_meets (s_master ss) (block_seed ss) (s_master ss') (A_ (s_master ss') (block_seed ss') 1).
Proof. exact equal_crossed_keys. Qed.
Print Assumptions C112_directions.
(** for two clients, after whatever has been called on them: these keys are the ones they hold *)
Theorem C112_clients : forall m s p g c l m' s' p' g' c' l', client_new m s p g = (Ok tt, c) -> client_new m' s' p' g' = (Ok tt, c') ->
  exists ss ss', reached m s g (Complete ss) /\ reached m' s' g' (Complete ss') /\
    w_enc (c_writer (snd (api_run m l c))) = Some (new_encryptor m (k_client (s_keys ss))) /\ r_dec (c_reader (snd (api_run m l c))) = Some (new_decryptor m (k_server (s_keys ss))) /\
    w_enc (c_writer (snd (api_run m' l' c'))) = Some (new_encryptor m' (k_client (s_keys ss'))) /\ r_dec (c_reader (snd (api_run m' l' c'))) = Some (new_decryptor m' (k_server (s_keys ss'))) /\
    (firstn 32 g <> firstn 32 g' ->
       (k_client (s_keys ss) = k_client (s_keys ss') -> masters_meet ss ss' \/ blocks_meet ss 1 ss' 1) /\
       (k_server (s_keys ss) = k_server (s_keys ss') -> masters_meet ss ss' \/ blocks_meet ss 2 ss' 2)) /\
    (k_client (s_keys ss) = k_server (s_keys ss') -> blocks_meet ss 1 ss' 2 \/ hmac_meets (s_master ss) (block_seed ss) (s_master ss') (A_ (s_master ss') (block_seed ss') 1)).
Proof. exact clients_apart. Qed.
Print Assumptions C112_clients.
(** equal origins give equal keys; nothing else of the handshake enters them *)
Theorem C112_origin : forall s t, same_origin s t -> s_master s = s_master t /\ s_keys s = s_keys t.
Proof. exact origin_keys. Qed.
Print Assumptions C112_origin.
Theorem C112_unbound : forall sv sv' cr C ss ss', sv_random sv = sv_random sv' -> sv_secret sv = sv_secret sv' -> agreed sv cr C ss -> agreed sv' cr C ss' -> same_origin ss ss'.
Proof. exact unbound. Qed.
Print Assumptions C112_unbound.
(** "clients with equal keys have seen equal messages" is false: the certificates and the signature may differ *)
Theorem C112_messages_refuted : exists m s s' g c c' ss ss', client_new m s [] g = (Ok tt, c) /\ client_new m s' [] g = (Ok tt, c') /\
  reached m s g (Complete ss) /\ reached m s' g (Complete ss') /\
  keyed_w m (c_writer c) (k_client (s_keys ss)) (iv_client (s_keys ss)) 1 /\ keyed_w m (c_writer c') (k_client (s_keys ss')) (iv_client (s_keys ss')) 1 /\
  s_keys ss = s_keys ss' /\ s_certs ss <> s_certs ss' /\ s_ske ss <> s_ske ss'.
Proof. exact same_keys_other_messages. Qed.
Print Assumptions C112_messages_refuted.
(** the words are not empty: a handshake does not meet a collision with itself at one place, and there are handshakes *)
Example ex_itself : forall s i, ~ blocks_meet s i s i /\ ~ masters_meet s s.
Proof. intros s i. split; intros [H|H]; revert H; apply P_Collide2.same_no_collision. Qed.
Example ex_handshake : exists m s g c ss, client_new m s [] g = (Ok tt, c) /\ reached m s g (Complete ss) /\ length (block_seed ss) = 77%nat.
Proof.
  destruct (conforming_run Debug plain_server (fun _ => []) plain_wf) as (s & ss & c & _ & _ & E & R & _).
  exists Debug, s, one_tape, c, ss. split; [exact E|]. split; [exact R|]. apply seed_lengths. exact (P_Client2.session_good _ _ _ _ R).
Qed.
