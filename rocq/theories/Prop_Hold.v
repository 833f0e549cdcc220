(** C113: for how many bytes a server can keep the client undecided. *)
From Verif Require Import Spec_Hold P_Client4 P_Hold P_Hold2 P_Venture.
From Coq Require Import ZifyBool ZifyNat ZifyN.
Local Open Scope list_scope.
Local Open Scope Z_scope.

(** ** C113 *)
(** whatever comes after more than [hold_limit] bytes, the construction has the same outcome, and the client has sent the same *)
Theorem C113_decided : forall m p g a x y s s', hold_limit < zlen a -> healthy (writer_new p) -> clean s -> clean s' -> stream s = a ++ x -> stream s' = a ++ y ->
  zlen (stream s) < 2 ^ 64 -> zlen (stream s') < 2 ^ 64 ->
  fst (client_new m s p g) = fst (client_new m s' p g) /\ w_out (c_writer (snd (client_new m s p g))) = w_out (c_writer (snd (client_new m s' p g))).
Proof. exact decided. Qed.
Print Assumptions C113_decided.
(** the same on any transport, also if it fails in reading or in writing *)
Theorem C113_decided_any : forall m p g a x y s s', hold_limit < zlen a -> stream s = a ++ x -> stream s' = a ++ y ->
  zlen (stream s) < 2 ^ 64 -> zlen (stream s') < 2 ^ 64 ->
  fst (client_new m s p g) = fst (client_new m s' p g) /\ w_out (c_writer (snd (client_new m s p g))) = w_out (c_writer (snd (client_new m s' p g))).
Proof. exact decided_any. Qed.
Print Assumptions C113_decided_any.
(** the records of an unfinished message, one byte each, leave the client waiting: it tells the end of the transport from a byte that starts no record *)
Theorem C113_waits : forall b m p g, incomplete b -> 6 * zlen b + 1 < 2 ^ 64 -> (32 <= length g)%nat -> healthy (writer_new p) ->
  fst (client_new m (source (dripping b ++ [])) p g) = Err IoFailure /\ fst (client_new m (source (dripping b ++ [x00])) p g) = Err UnexpectedMessage.
Proof. exact drip_waits. Qed.
Print Assumptions C113_waits.
(** as property, refuted: a few records decide it. There is a stream of a hundred million bytes after which every client is undecided *)
Theorem C113_small_refuted : exists a x y, zlen a = 6 * most_pending /\ forall m p g, (32 <= length g)%nat -> healthy (writer_new p) ->
  fst (client_new m (source (a ++ x)) p g) <> fst (client_new m (source (a ++ y)) p g).
Proof. exact held_long. Qed.
Print Assumptions C113_small_refuted.
(** nor is a read on a connected client decided by any number of bytes: empty application data keeps it waiting for as long as the server likes *)
Theorem C113_reading : forall m, exists before, forall n, Z.of_nat n < 2 ^ 62 -> exists a x c c' d d', zlen a = 21 * Z.of_nat n /\
  client_new m (source (before ++ a)) [] one_tape = (Ok tt, c) /\ client_new m (source (before ++ a ++ x)) [] one_tape = (Ok tt, c') /\
  stream (r_src (c_reader c)) = a /\ stream (r_src (c_reader c')) = a ++ x /\
  client_read m 1 c = (Ok [], d) /\ client_read m 1 c' = (Ok [x41], d').
Proof. exact held_reading. Qed.
Print Assumptions C113_reading.
(** as property, refuted: a read is decided by a bounded number of bytes as well *)
Theorem C113_reading_refuted : exists m before, forall n, Z.of_nat n < 2 ^ 62 -> exists a x c c' d d', zlen a = 21 * Z.of_nat n /\
  client_new m (source (before ++ a)) [] one_tape = (Ok tt, c) /\ client_new m (source (before ++ a ++ x)) [] one_tape = (Ok tt, c') /\
  stream (r_src (c_reader c)) = a /\ stream (r_src (c_reader c')) = a ++ x /\
  client_read m 1 c = (Ok [], d) /\ client_read m 1 c' = (Ok [x41], d').
Proof. exact (ex_intro _ Release (held_reading Release)). Qed.
Print Assumptions C113_reading_refuted.

(** ** Examples *)
(** the limits, in bytes *)
Example C113_ex_limits : hold_limit = 872525958 /\ 6 * most_pending = 100663308.
Proof. vm_compute. split; reflexivity. Qed.
(** a stream longer than the limit and its outcome *)
Example C113_ex_zeros : exists a, hold_limit < zlen a < 2 ^ 63 /\ forall m g, (32 <= length g)%nat -> fst (client_new m (source a) [] g) = Err UnexpectedMessage.
Proof.
  set (n := Z.to_nat hold_limit). assert (Ln : Z.of_nat n = hold_limit) by (apply Z2Nat.id; vm_compute; discriminate).
  assert (Lh : hold_limit < 2 ^ 62) by reflexivity. clearbody n. exists (x00 :: zeros n). split.
  - unfold zlen, zeros. cbn [length]. rewrite repeat_length. lia.
  - intros m g Lg. apply zeros_refused; [lia|exact Lg|constructor].
Qed.
(** a connection is decided by its own bytes *)
Example C113_ex_connection : forall m, exists before, forall rest, fst (client_new m (source (before ++ rest)) [] one_tape) = Ok tt.
Proof. intros m. destruct (connection_then m) as (before & ss & H). exists before. intros rest. destruct (H rest) as (c & -> & _). reflexivity. Qed.
(** the first five bytes of a message of six *)
Example C113_ex_waits : incomplete [x02; x00; x00; x02; x03].
Proof. exists x02, [x03; x03], [x03]. split; [vm_compute; reflexivity|]. split; [reflexivity|discriminate]. Qed.
