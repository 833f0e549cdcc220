(** C105: programs that call the client again and again, written without the model's loops. *)
From Verif Require Export M_Std2.

(** reads of these sizes, one after the other, until one of them is short *)
Fixpoint reading (m : mode) (ns : list nat) : M client bytes :=
  match ns with
  | [] => mret []
  | n :: ns =>
      do* d := client_read m n in
      if (length d <? n)%nat then mret d else do* d' := reading m ns in mret (d ++ d')
  end.
(** writes of these buffers, one after the other, up to the first error *)
Fixpoint handing (m : mode) (ps : list bytes) : M client unit :=
  match ps with
  | [] => mret tt
  | p :: ps => do* _ := client_write_all m p in handing m ps
  end.
