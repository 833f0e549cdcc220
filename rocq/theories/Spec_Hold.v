(** Specification vocabulary for C113: for how many bytes a server can keep the client undecided. *)
From Verif Require Export Spec_Build.

(** the most that is kept of an unfinished handshake message: a header of 4 and a body of 2^24 - 1 bytes, less one *)
Definition most_pending : Z := 2 ^ 24 - 1 + 4 - 1.
(** the longest record the client takes: 5 bytes of header and 18432 of contents *)
Definition record_limit : Z := 5 + 18432.
(** the most bytes on the wire for one byte of a handshake message: a record of its own, in the clear or sealed *)
Definition weight (v : cover) : Z := match v with Clear => 6 | Sealed _ _ _ => 22 end.
(** one message; and the five in the clear (four messages and the ChangeCipherSpec) and the sealed one *)
Definition message_limit (v : cover) : Z := weight v * most_pending + record_limit.
Definition hold_limit : Z := 5 * (6 * most_pending + record_limit) + (22 * most_pending + record_limit).
(** handshake records of one byte each *)
Definition dripping (b : bytes) : bytes := concat (map (fun x => e_record HandshakeTy [x]) b).
