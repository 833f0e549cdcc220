(** C100: short and interrupted calls of the transport. *)
From Verif Require Export Spec_Any M_Raw.
Local Open Scope list_scope.
Local Open Scope Z_scope.

(** what a program asks of a transport it writes to: slices, one after the other, and how it goes on if one was taken and if not *)
Inductive wants (A : Type) :=
| Done (a : A)
| Send (s : bytes) (good bad : wants A).
Arguments Done {A}. Arguments Send {A}.
(** a transport with states [T]: for a slice, whether all is well, what was taken, and the next state *)
Fixpoint served {T A} (give : T -> bytes -> bool * bytes * T) (t : wants A) (x : T) : A * bytes * T :=
  match t with
  | Done a => (a, [], x)
  | Send s good bad =>
      let '(ok, out, x1) := give x s in
      let '(a, more, x2) := served give (if ok then good else bad) x1 in (a, out ++ more, x2)
  end.
(** it takes all of the slice, or fails after taking a part that is not all of it *)
Definition lawful {T} (give : T -> bytes -> bool * bytes * T) : Prop := forall x s, match give x s with
  | (true, out, _) => out = s
  | (false, out, _) => exists b rest, s = out ++ b :: rest
  end.
(** the transports of the model *)
Definition plan_gives (p : list wevent) (s : bytes) : bool * bytes * list wevent :=
  match s, p with
  | [], _ => (true, [], p)
  | _, [] => (true, s, [])
  | _, WOk :: p' => (true, s, p')
  | _, WFail k :: p' => (false, firstn k s, p')
  end.
(** calls that take something, and calls to be tried again *)
Definition mild (e : wcall) : Prop := match e with Takes n => n <> O | Again => True | Breaks => False end.
(** how many bytes they take *)
Fixpoint taken (e : list wcall) : nat := match e with [] => O | Takes n :: e' => (n + taken e')%nat | _ :: e' => taken e' end.
