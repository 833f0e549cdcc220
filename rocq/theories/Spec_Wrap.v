(** C99: sequence numbers beyond 2^64. *)
From Verif Require Export Spec_Any.
Local Open Scope list_scope.
Local Open Scope Z_scope.

(** fragments sealed under numbers that start again at 0 after 2^64 - 1 *)
Fixpoint cyclic (key iv : bytes) (k : Z) (t : content_type) (fs : list bytes) : bytes :=
  match fs with
  | [] => []
  | f :: fs' => sealed_record key iv (k mod 2 ^ 64) t f ++ cyclic key iv (k + 1) t fs'
  end.
(** [write] of one slice after the other, up to the first that does not succeed *)
Fixpoint writing (m : mode) (ds : list bytes) : M client unit :=
  match ds with
  | [] => mret tt
  | d :: ds' => do* _ := client_write m d in writing m ds'
  end.
(** the data of [n] records, received one after the other *)
Fixpoint taking (m : mode) (n : nat) : M reader (list bytes) :=
  match n with
  | O => mret []
  | S n' => do* d := read_application_data m in do* ds := taking m n' in mret (d :: ds)
  end.
