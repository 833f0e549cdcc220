(** Specification vocabulary for C88: what the service decides, and a relay between the client and the server. *)
From Verif Require Export Spec_Talk2.

(** a client that can connect: its transport works, and its randomness gives a private value whose used part is not zero *)
Definition able (p : list wevent) (g : rng) : Prop :=
  healthy (writer_new p) /\ (32 <= length g)%nat /\ exists j, first_accepted (skipn 32 g) j /\ used_scalar (draw (skipn 32 g) j) <> 0.
(** the public point of this client *)
Definition private_point (g : rng) (C : pt) : Prop :=
  exists j, first_accepted (skipn 32 g) j /\ C = nmul (Z.to_nat (used_scalar (draw (skipn 32 g) j))) Gpt.
(** [S]: all that the server sends, in the end, to this client *)
Definition final (m : mode) (q : application) (p : list wevent) (g : rng) (srv : bytes -> bytes) (S : bytes) : Prop :=
  conversation srv (sent_after m q p g) S /\ settled srv (sent_after m q p g) S.
(** an application that says [w], byte by byte and mark by mark, then asks for [n] bytes *)
Fixpoint speak (w : speech) (n : nat) : application :=
  match w with
  | [] => Do (Read n) (fun _ => Quit)
  | Some b :: t => Do (Write [b]) (fun _ => speak t n)
  | None :: t => Do Close (fun _ => speak t n)
  end.
Definition uttered (w : speech) : list answer := map (fun x => match x with Some _ => Wrote (Ok 1) | None => Closed (Ok tt) end) w.
(** somebody who talks to the server finds that its answer to [w] is [d]: that many bytes come, and not one more *)
Definition learned (srv : bytes -> bytes) (w : speech) (d : bytes) : Prop :=
  exists m p g S S', able p g /\
    final m (speak w (length d)) p g srv S /\ state_after m (speak w (length d)) p g S = Ended (uttered w ++ [Got (Ok d)]) /\
    final m (speak w (Datatypes.S (length d))) p g srv S' /\ state_after m (speak w (Datatypes.S (length d))) p g S' = Waiting.
