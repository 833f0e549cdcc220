(** C89: exactly the byte streams with which the client connects. *)
From Verif Require Import Spec_Accept P_Util P_Codec P_Client3 P_Client4 P_Accept.
From Coq Require Import ZifyBool ZifyNat ZifyN.
Local Open Scope list_scope.
Local Open Scope Z_scope.

(** the client connects if and only if what it can read begins as described by [connecting] *)
Theorem C89_connects : forall m s p g, healthy (writer_new p) -> zlen (all_bytes s) + 1 < 2 ^ 64 ->
  ((exists c, client_new m s p g = (Ok tt, c)) <-> exists ss n extra rest, connecting m g ss (stream s) n extra rest).
Proof. exact connecting_iff. Qed.
Print Assumptions C89_connects.

(** whenever it connects, its session, the next number, the bytes left in its buffer and those not yet read are those of the description *)
Theorem C89_only_these : forall m s p g c, zlen (all_bytes s) + 1 < 2 ^ 64 -> client_new m s p g = (Ok tt, c) ->
  exists ss n, reached m s g (Complete ss) /\ connecting m g ss (stream s) n (r_buf (c_reader c)) (stream (r_src (c_reader c))) /\
    keyed m (c_reader c) (k_server (s_keys ss)) (iv_server (s_keys ss)) n.
Proof. exact accepted_stream. Qed.
Print Assumptions C89_only_these.

(** every such stream, in any pieces, and every description of it *)
Theorem C89_all_of_these : forall m s p g ss n extra rest, healthy (writer_new p) -> zlen (stream s) < 2 ^ 64 -> connecting m g ss (stream s) n extra rest ->
  reached m s g (Complete ss) /\ exists c, client_new m s p g = (Ok tt, c) /\ r_buf (c_reader c) = extra /\ stream (r_src (c_reader c)) = rest /\
    keyed m (c_reader c) (k_server (s_keys ss)) (iv_server (s_keys ss)) n.
Proof. exact stream_accepted. Qed.
Print Assumptions C89_all_of_these.

(** there is only one description *)
Theorem C89_once : forall m g ss ss' bs n n' extra extra' rest rest', zlen bs + 1 < 2 ^ 64 ->
  connecting m g ss bs n extra rest -> connecting m g ss' bs n' extra' rest' -> ss = ss' /\ n = n' /\ extra = extra' /\ rest = rest'.
Proof. exact connecting_once. Qed.
Print Assumptions C89_once.
(** and what follows the Finished is not looked at *)
Theorem C89_rest : forall m g ss bs n extra rest rest', connecting m g ss bs n extra rest ->
  exists before, bs = before ++ rest /\ connecting m g ss (before ++ rest') n extra rest'.
Proof. exact connecting_rest. Qed.
Print Assumptions C89_rest.

(** foreign version bytes, two bytes after the extensions of the ServerHello, messages cut anywhere, the first two bytes of the
    Finished in the clear, a sealed byte after it: the client connects *)
Example ex_odd : forall m, exists ss q, agreed odd_server (firstn 32 one_tape) Gpt ss /\ e_handshake (s_server_fin ss) = [x14; x00; x00; x0c] ++ q /\
  connecting m one_tape ss (odd_stream ss q) 2 [x63] [].
Proof. exact odd_run. Qed.
Example ex_incomplete : incomplete [x14; x00] /\ ~ incomplete [x0e; x00; x00; x00].
Proof.
  split; [exists x14, [], [x00; x00]; split; [reflexivity|]; split; [reflexivity|discriminate]|].
  intros I. apply none_iff in I. discriminate I.
Qed.
