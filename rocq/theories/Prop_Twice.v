(** C102: the same server stream for two runs of the client. *)
From Verif Require Import Spec_Shape P_Client4 P_Twice.
Local Open Scope list_scope.
Local Open Scope Z_scope.

(** If two runs, with tapes of their own, accept the same bytes, then they have the same server messages, and one record of these bytes is sealed with number 0
    under the keys of both. The keys are made of the tapes: each run has the first 32 bytes of its own in them *)
Theorem C102_replay : forall m s p g c m' s' p' g' c', healthy (writer_new p) -> healthy (writer_new p') -> clean s -> clean s' -> stream s = stream s' -> zlen (stream s) < 2 ^ 64 ->
  client_new m s p g = (Ok tt, c) -> client_new m' s' p' g' = (Ok tt, c') ->
  exists ss ss', w_out (c_writer c) = stage_out (Complete ss) /\ w_out (c_writer c') = stage_out (Complete ss') /\
    s_cr ss = firstn 32 g /\ s_cr ss' = firstn 32 g' /\ s_sh ss = s_sh ss' /\ s_certs ss = s_certs ss' /\ s_ske ss = s_ske ss' /\
    exists before maj min f more d d', stream s = before ++ wire HandshakeTy maj min f ++ more /\
      protects (k_server (s_keys ss)) (iv_server (s_keys ss)) 0 HandshakeTy maj min d f /\
      protects (k_server (s_keys ss')) (iv_server (s_keys ss')) 0 HandshakeTy maj min d' f.
Proof. exact replay_accepted. Qed.
Print Assumptions C102_replay.
(** With one tape for two runs, as after a snapshot of the machine, different data are sealed under one key with one number *)
Theorem C102_tape_refuted : exists m s g key iv out d d' c c' l l', sitting m (Do (Write d) (fun _ => Quit)) s [] g = (Ok tt, l, c) /\ sitting m (Do (Write d') (fun _ => Quit)) s [] g = (Ok tt, l', c') /\
  d <> d' /\ w_out (c_writer c) = out ++ sealed_record key iv 1 ApplicationDataTy d /\ w_out (c_writer c') = out ++ sealed_record key iv 1 ApplicationDataTy d'.
Proof. exact tape_twice. Qed.
Print Assumptions C102_tape_refuted.
(** which shows how they differ *)
Theorem C102_pad : forall key nonce ad ad' p p', length p = length p' ->
  xor_zip (firstn (length p) (aead_seal key nonce ad p)) (firstn (length p) (aead_seal key nonce ad' p')) = xor_zip p p'.
Proof. exact seals_cancel. Qed.
Print Assumptions C102_pad.

Example ex_once : forall m, exists s c, clean s /\ zlen (stream s) < 2 ^ 64 /\ client_new m s [] one_tape = (Ok tt, c). Proof. exact once_run. Qed.
Example ex_pad : xor_zip [x61; x62] [x63; x62] = [x02; x00]. Proof. reflexivity. Qed.
