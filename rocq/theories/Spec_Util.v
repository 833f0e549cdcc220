(** Specification vocabulary for src/util.rs: byte streams behind a transport. *)
From Verif Require Export M_Util.

(** the bytes a source can still deliver before its first failure (error, zero-length read, end) *)
Fixpoint stream (s : src) : bytes :=
  match s with
  | RData (b :: bs) :: r => b :: bs ++ stream r
  | _ => []
  end.

(** a source that never fails before its end: only non-empty pieces *)
Definition clean (s : src) : Prop := Forall (fun e => exists b bs, e = RData (b :: bs)) s.

(** two sources delivering the same bytes cut differently *)
Definition same_stream (s1 s2 : src) : Prop := clean s1 /\ clean s2 /\ stream s1 = stream s2.
