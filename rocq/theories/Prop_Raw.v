(** C100: short and interrupted calls of the transport. *)
From Verif Require Import Spec_Raw P_Util P_Client4 P_Raw.
From Coq Require Import ZifyBool ZifyNat ZifyN.
Local Open Scope list_scope.
Local Open Scope Z_scope.

(** a session is a program that hands slices to the transport; on the transports of the model it is run as the model says; on any transport that takes
    a slice or fails after a part of it, whatever it depends on, it does and sends what it does on one of the model; and short and interrupted calls make
    no difference to a transport that works *)
Theorem C100_session : forall m q s g, exists t : wants (res unit * list answer),
  (forall p, exists c, sitting m q s p g = (fst (fst (fst (served plan_gives t p))), snd (fst (fst (served plan_gives t p))), c) /\ w_out (c_writer c) = snd (fst (served plan_gives t p))) /\
  (forall T (give : T -> bytes -> bool * bytes * T) x, lawful give -> exists p c, sitting m q s p g = (fst (fst (fst (served give t x))), snd (fst (fst (served give t x))), c) /\ w_out (c_writer c) = snd (fst (served give t x))) /\
  (forall e, Forall mild e -> exists c, sitting m q s [] g = (fst (fst (fst (served std_write_all t e))), snd (fst (fst (served std_write_all t e))), c) /\ w_out (c_writer c) = snd (fst (served std_write_all t e))).
Proof. exact any_transport. Qed.
Print Assumptions C100_session.
(** the loop of std makes such a transport of any sequence of calls of [write] *)
Theorem C100_std : lawful std_write_all.
Proof. exact std_lawful. Qed.
Print Assumptions C100_std.
Theorem C100_mild : forall e, Forall mild e -> forall s, exists r, std_write_all e s = (true, s, r) /\ Forall mild r.
Proof. exact std_mild. Qed.
Print Assumptions C100_mild.
(** it gives up at the first error and when nothing is taken, after what was taken until then *)
Theorem C100_stops : forall e1 c e2, Forall mild e1 -> c = Breaks \/ c = Takes 0 -> forall s, (taken e1 < length s)%nat -> std_write_all (e1 ++ c :: e2) s = (false, firstn (taken e1) s, e2).
Proof. exact std_stops. Qed.
Print Assumptions C100_stops.
(** and the outcomes of the model come from calls, if the part taken is not the whole *)
Theorem C100_reached : forall s p, s <> [] -> (forall k p', p = WFail k :: p' -> (k < length s)%nat) ->
  exists e, let '(ok, out, _) := plan_gives p s in fst (std_write_all e s) = (ok, out).
Proof. exact std_reaches. Qed.
Print Assumptions C100_reached.
(** reads are not tried again: an error at one of them, such as [Interrupted], ends the construction of a client that would have succeeded *)
Theorem C100_read_refuted : exists m s g, (exists c, client_new m s [] g = (Ok tt, c)) /\ (exists c, client_new m (RErr :: s) [] g = (Err IoFailure, c)).
Proof. exact read_not_retried. Qed.
Print Assumptions C100_read_refuted.

Example ex_std_short : std_write_all [Takes 1; Again; Takes 2] [x61; x62; x63; x64] = (true, [x61; x62; x63; x64], []). Proof. reflexivity. Qed.
Example ex_std_cut : std_write_all [Takes 1; Again; Takes 2; Breaks; Again] [x61; x62; x63; x64] = (false, [x61; x62; x63], [Again]). Proof. reflexivity. Qed.
Example ex_std_zero : std_write_all [Takes 3; Takes 0] [x61; x62; x63; x64] = (false, [x61; x62; x63], []). Proof. reflexivity. Qed.
Example ex_std_mild : Forall mild [Takes 1; Again; Takes 2]. Proof. repeat constructor; discriminate. Qed.
(** a program of two slices, the second of which depends on the fate of the first *)
Definition two_slices : wants nat := Send [x61; x62] (Send [x63] (Done 0%nat) (Done 1%nat)) (Send [x64] (Done 2%nat) (Done 3%nat)).
Example ex_served : served std_write_all two_slices [Takes 1; Breaks; Again] = (2%nat, [x61; x64], []) /\ served plan_gives two_slices [WFail 1] = (2%nat, [x61; x64], []). Proof. split; reflexivity. Qed.
(** a transport that cannot take more than three bytes in all *)
Definition small_room (n : nat) (s : bytes) : bool * bytes * nat := if (length s <=? n)%nat then (true, s, (n - length s)%nat) else (false, firstn n s, 0%nat).
Example ex_small_room : lawful small_room.
Proof.
  intros n s. unfold small_room. destruct (length s <=? n)%nat eqn:E; [reflexivity|]. destruct (skipn n s) as [|b r] eqn:K.
  - apply (f_equal (@length byte)) in K. rewrite skipn_length in K. cbn [length] in K. lia.
  - exists b, r. rewrite <- K. symmetry. apply firstn_skipn.
Qed.
