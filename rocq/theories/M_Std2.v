(** Model of further default methods of [std::io::Read] and [std::io::Write] on top of the impls at src/client.rs:288-350.
    [std] itself is not in /repo; its documented behaviour is what is modelled here. *)
From Verif Require Export M_Std.

(** the first buffer that is not empty, or an empty one ([std::io]'s default for both vectored methods) *)
Definition first_nonempty (bufs : list bytes) : bytes :=
  match find (fun b => negb (Nat.eqb (length b) 0)) bufs with Some b => b | None => [] end.
(** [Write::write_vectored] (not overridden by the impl at src/client.rs:288-316): [write] of that buffer *)
Definition client_write_vectored (m : mode) (bufs : list bytes) : M client Z := client_write m (first_nonempty bufs).
(** [Read::read_vectored] (not overridden by the impl at src/client.rs:323-350) with buffers of these lengths: [read] into the
    first that is not empty *)
Definition client_read_vectored (m : mode) (lens : list nat) : M client bytes :=
  client_read m (match find (fun n => negb (Nat.eqb n 0)) lens with Some n => n | None => O end).
(** [Write::write_fmt] (not overridden by the impl at src/client.rs:288-316): [write_all] of each piece of the text, up to the
    first error *)
Fixpoint client_write_fmt (m : mode) (pieces : list bytes) : M client unit :=
  match pieces with
  | [] => mret tt
  | p :: ps => do* _ := client_write_all m p in client_write_fmt m ps
  end.
(** [Read::bytes] (not overridden by the impl at src/client.rs:323-350): [next] reads into a buffer of one byte, and zero bytes
    are the end.  Here: at most [k] items, up to the end. *)
Fixpoint client_bytes (m : mode) (k : nat) : M client bytes :=
  match k with
  | O => mret []
  | S k =>
      do* d := client_read m 1 in
      match d with
      | [] => mret []
      | _ => do* ds := client_bytes m k in mret (d ++ ds)
      end
  end.
