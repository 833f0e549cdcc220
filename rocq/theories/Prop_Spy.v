(** C87: the bytes on the wire and 2^56 guesses give away a connection. *)
From Verif Require Import Spec_Spy P_Util P_Codec P_Client4 P_Spy.
From Coq Require Import ZifyBool ZifyNat ZifyN.
Local Open Scope list_scope.
Local Open Scope Z_scope.

(** some guess fits what was seen, and only one *)
Theorem C87_found : forall m s p g c l as_ c', client_new m s p g = (Ok tt, c) -> calls m l c = (as_, c') ->
  exists e ss, matches m s (w_out (c_writer c')) e ss.
Proof. exact found. Qed.
Print Assumptions C87_found.
Theorem C87_one_guess : forall m s p g c l as_ c' e e' ss ss', client_new m s p g = (Ok tt, c) -> calls m l c = (as_, c') ->
  matches m s (w_out (c_writer c')) e ss -> matches m s (w_out (c_writer c')) e' ss' -> e = e' /\ ss = ss'.
Proof. exact one_guess. Qed.
Print Assumptions C87_one_guess.
(** it is the session of the connection, with all its keys *)
Theorem C87_right_session : forall m s p g c l as_ c' e ss, client_new m s p g = (Ok tt, c) -> calls m l c = (as_, c') ->
  matches m s (w_out (c_writer c')) e ss -> reached m s g (Complete ss).
Proof. exact right_session. Qed.
Print Assumptions C87_right_session.
(** with it everything the client wrote is read *)
Theorem C87_overheard : forall m s p g c l as_ c' e ss t, client_new m s p g = (Ok tt, c) -> healthy (writer_new p) -> 2 + cost l < 2 ^ 64 ->
  calls m l c = (as_, c') -> matches m s (w_out (c_writer c')) e ss -> stream t = w_out (c_writer c') ->
  exists it, renders l it /\ hears m t ss it /\ app_data (map heard it) = written l.
Proof. exact overheard. Qed.
Print Assumptions C87_overheard.
(** and everything it was told: a replay of the recorded bytes gives the same answers to the same calls *)
Theorem C87_replayed : forall m s p g c l as_ c' e ss, client_new m s p g = (Ok tt, c) -> calls m l c = (as_, c') ->
  matches m s (w_out (c_writer c')) e ss ->
  exists t, client_new m s p (random_seen (w_out (c_writer c')) ++ guess e) = (Ok tt, set_rng c t) /\ calls m l (set_rng c t) = (as_, set_rng c' t).
Proof. exact replayed. Qed.
Print Assumptions C87_replayed.
(** two lists of 2^28 points are enough to find the guess: they meet, and only where the guess is *)
Theorem C87_halves : forall m s p g c l as_ c' e ss x y, client_new m s p g = (Ok tt, c) -> calls m l c = (as_, c') ->
  matches m s (w_out (c_writer c')) e ss -> public_seen (w_out (c_writer c')) = x41 :: sec1 x y -> oncurve (Aff x y) ->
  (exists a b, 0 <= a < half /\ 0 <= b < half /\ eadd (Aff x y) (eneg (nmul (Z.to_nat a) Gpt)) = nmul (Z.to_nat b) (nmul (Z.to_nat half) Gpt)) /\
  (forall a b, 0 <= a < half -> 0 <= b < half -> eadd (Aff x y) (eneg (nmul (Z.to_nat a) Gpt)) = nmul (Z.to_nat b) (nmul (Z.to_nat half) Gpt) ->
     e = a + half * b).
Proof. exact halves. Qed.
Print Assumptions C87_halves.
Example ex_spy : forall m, exists s g c c' as_ e ss, client_new m s [] g = (Ok tt, c) /\ calls m [Write [x61; x62]] c = (as_, c') /\
  matches m s (w_out (c_writer c')) e ss.
Proof. exact spy_example. Qed.
Example ex_guess : used_scalar (draw (guess 123456789) 0) = 123456789 /\ random_seen (flight_hello (repeat x07 32)) = repeat x07 32.
Proof. split; vm_compute; reflexivity. Qed.
(** the on-curve condition holds for every connection but the one in 2^56 of C66 whose scalar is 0 *)
Example ex_public : exists ss, agreed plain_server (repeat x00 32) (nmul (Z.to_nat 5) Gpt) ss /\
  exists x y, s_cke ss = x41 :: sec1 x y /\ oncurve (Aff x y).
Proof. exact public_example. Qed.
