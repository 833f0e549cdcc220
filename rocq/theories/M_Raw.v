(** Model of [std::io::Write::write_all] on the transport, as called at src/tls.rs:147-151 and src/util.rs:60-74.

    [std] is not in /repo; its documented loop is what is modelled here.  [M_Record.write_all] has the outcomes of
    whole calls of it; here are those of the single calls of [write] it makes. *)
From Verif Require Export M_Record.

(** one call of [write] (src/tls.rs:147-151): [n] bytes taken (at most the slice), the error [Interrupted], another error *)
Inductive wcall := Takes (n : nat) | Again | Breaks.
(** [std::io::Write::write_all] (called at src/tls.rs:147-151): nothing for an empty slice; [Ok(0)] is the error [WriteZero]; [Interrupted] is
    tried again.  Whether it succeeded, the bytes taken, and the calls to come.  After the list every call takes all. *)
Fixpoint std_write_all (e : list wcall) (s : bytes) {struct e} : bool * bytes * list wcall :=
  match s with
  | [] => (true, [], e)
  | _ =>
      match e with
      | [] => (true, s, [])
      | Takes O :: e' => (false, [], e')
      | Takes n :: e' => let '(ok, out, r) := std_write_all e' (skipn n s) in (ok, firstn n s ++ out, r)
      | Again :: e' => std_write_all e' s
      | Breaks :: e' => (false, [], e')
      end
  end.
