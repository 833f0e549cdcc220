(** C101: what an observer sees of the client's records. *)
From Verif Require Import Spec_Shape P_Client4 P_Shape.
Local Open Scope list_scope.
Local Open Scope Z_scope.

(** the types and lengths of the records of a session depend on nothing but the calls that were made, and on these only through the lengths of the data
    written and the places of [close] *)
Theorem C101_session : forall m q s p g l c, healthy (writer_new p) -> zlen (concat (stretches s)) + 1 < 2 ^ 64 -> 1 + spent q l < 2 ^ 64 ->
  sitting m q s p g = (Ok tt, l, c) -> headers (w_out (c_writer c)) (opening ++ use_shape q l).
Proof. exact session_headers. Qed.
Print Assumptions C101_session.
(** a construction that fails shows one of five *)
Theorem C101_refused : forall m q s p g x l c, healthy (writer_new p) -> zlen (concat (stretches s)) + 1 < 2 ^ 64 ->
  sitting m q s p g = (x, l, c) -> x <> Ok tt ->
  l = [] /\ exists h, headers (w_out (c_writer c)) h /\ In h [[]; [(HandshakeTy, 69)]; [(HandshakeTy, 69); (AlertTy, 2)]; opening; opening ++ [(AlertTy, 18)]].
Proof. exact session_refused. Qed.
Print Assumptions C101_refused.
(** the bytes determine them *)
Theorem C101_one : forall bs l, headers bs l -> forall l', headers bs l' -> l' = l.
Proof. exact headers_one. Qed.
Print Assumptions C101_one.
(** two sessions look alike exactly if their calls do: whatever the servers, the tapes, the keys and the data *)
Theorem C101_alike : forall m q s p g l c m' q' s' p' g' l' c', healthy (writer_new p) -> zlen (concat (stretches s)) + 1 < 2 ^ 64 -> 1 + spent q l < 2 ^ 64 ->
  healthy (writer_new p') -> zlen (concat (stretches s')) + 1 < 2 ^ 64 -> 1 + spent q' l' < 2 ^ 64 ->
  sitting m q s p g = (Ok tt, l, c) -> sitting m' q' s' p' g' = (Ok tt, l', c') ->
  (use_shape q l = use_shape q' l' <-> exists h, headers (w_out (c_writer c)) h /\ headers (w_out (c_writer c')) h).
Proof. exact sessions_alike. Qed.
Print Assumptions C101_alike.
(** nothing is padded: the number of bytes written can be read off *)
Theorem C101_total : forall q l, data_seen (opening ++ use_shape q l) = data_sent q l.
Proof. exact no_padding. Qed.
Print Assumptions C101_total.
(** so lengths are not hidden: two sessions that differ in nothing but one byte of data written look different *)
Theorem C101_length_refuted : exists m s g d d' l l' c c', sitting m (Do (Write d) (fun _ => Quit)) s [] g = (Ok tt, l, c) /\ sitting m (Do (Write d') (fun _ => Quit)) s [] g = (Ok tt, l', c') /\
  zlen d' = zlen d + 1 /\ ~ exists h, headers (w_out (c_writer c)) h /\ headers (w_out (c_writer c')) h.
Proof. exact lengths_show. Qed.
Print Assumptions C101_length_refuted.

Example ex_loud : forall m, exists s c, zlen (concat (stretches s)) + 1 < 2 ^ 64 /\ sitting m loud s [] one_tape = (Ok tt, [Wrote (Ok 3); Closed (Ok tt)], c).
Proof. exact loud_run. Qed.
Example ex_loud_shape : opening ++ use_shape loud [Wrote (Ok 3); Closed (Ok tt)] =
  [(HandshakeTy, 69); (HandshakeTy, 70); (ChangeCipherSpecTy, 1); (HandshakeTy, 32); (ApplicationDataTy, 19); (AlertTy, 18)]. Proof. reflexivity. Qed.
Example ex_cuts : cuts 0 = [] /\ cuts 1 = [1] /\ cuts 16384 = [16384] /\ cuts 16385 = [16384; 1] /\ cuts 32768 = [16384; 16384]. Proof. repeat split; reflexivity. Qed.
Example ex_headers : headers [x16; x03; x03; x00; x02; x61; x62; x15; x03; x03; x00; x00] [(HandshakeTy, 2); (AlertTy, 0)].
Proof. apply (Hd_record HandshakeTy [x61; x62]); [discriminate|]. apply (Hd_record AlertTy [] []); [discriminate|constructor]. Qed.
