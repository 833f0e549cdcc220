(** Specification vocabulary for conversations: the client and an application on one side, a server that answers what it has seen
    on the other, and a network that delays and cuts as it likes. *)
From Verif Require Export Spec_Client.

(** the bytes [r] have arrived, in one piece; whoever asks for more hits the mark [RErr] *)
Definition feed (r : bytes) : src := match r with [] => [RErr] | _ => [RData r; RErr] end.
(** the same bytes in any pieces *)
Definition arrived (r : bytes) (s : src) : Prop := exists a, clean a /\ stream a = r /\ s = a ++ [RErr].
(** the mark was hit: the call in question is still waiting for the server *)
Definition starved (c : client) : bool := match r_src (c_reader c) with [] => true | _ => false end.

(** an application: its next call, and how it goes on depending on the answer *)
Inductive application := Quit | Do (o : call) (next : answer -> application).
Definition crashed (a : answer) : bool :=
  match a with
  | Got Panic | Got Diverge | Wrote Panic | Wrote Diverge | Closed Panic | Closed Diverge => true
  | _ => false
  end.
(** [None]: some call is waiting *)
Fixpoint perform (m : mode) (q : application) (c : client) : option (list answer) * client :=
  match q with
  | Quit => (Some [], c)
  | Do o next =>
      let (a, c1) := do_call m o c in
      if starved c1 then (None, c1)
      else if crashed a then (Some [a], c1)
      else let (l, c2) := perform m (next a) c1 in (option_map (cons a) l, c2)
  end.
(** how far the client is: waiting; construction failed; the application ended after these answers *)
Inductive progress := Waiting | Failed (x : res unit) | Ended (l : list answer).
Definition conduct (m : mode) (q : application) (p : list wevent) (g : rng) (s : src) : progress * client :=
  let (x, c) := client_new m s p g in
  if starved c then (Waiting, c)
  else match x with
       | Ok tt => let (o, c') := perform m q c in (match o with None => Waiting | Some l => Ended l end, c')
       | _ => (Failed x, c)
       end.
(** after the bytes [r] *)
Definition state_after m q p g r : progress := fst (conduct m q p g (feed r)).
Definition sent_after m q p g r : bytes := w_out (c_writer (snd (conduct m q p g (feed r)))).

(** a server: all it has sent, as a function of all it has seen; it cannot take anything back *)
Definition causal_server (srv : bytes -> bytes) : Prop := forall a b, exists t, srv (a ++ b) = srv a ++ t.
(** what has arrived at the client in some course of the conversation: the network hands over a further piece of what the
    server has sent by now *)
Inductive conversation (srv sent : bytes -> bytes) : bytes -> Prop :=
| Cv_start : conversation srv sent []
| Cv_more r x t : conversation srv sent r -> srv (sent r) = r ++ x ++ t -> conversation srv sent (r ++ x).
(** nothing is under way any more *)
Definition settled (srv sent : bytes -> bytes) (r : bytes) : Prop := srv (sent r) = r.
