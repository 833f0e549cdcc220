(** C78 and C79: conversations with a server that answers what it sees. *)
From Verif Require Import Spec_Talk2 P_Util P_Codec P_Client3 P_Client4 P_Talk P_Talk2 P_Talk3 P_Talk4 P_Talk5 P_Server.
From Coq Require Import ZifyBool ZifyNat ZifyN.
Local Open Scope list_scope.
Local Open Scope Z_scope.

(** ** C78: the order of events does not matter *)
(** only the bytes that have arrived count, not the pieces in which they came *)
Theorem C78_splitting : forall m q p g r s, arrived r s ->
  fst (conduct m q p g s) = state_after m q p g r /\ w_out (c_writer (snd (conduct m q p g s))) = sent_after m q p g r.
Proof. exact conduct_splitting. Qed.
Print Assumptions C78_splitting.
Example ex_arrived : arrived [x16; x03] [RData [x16]; RData [x03]; RErr].
Proof. exists [RData [x16]; RData [x03]]. split; [repeat constructor; eexists _, _; reflexivity|]. split; reflexivity. Qed.
(** what has been sent stays sent, and a finished client is finished: nothing depends on bytes that have yet to come *)
Theorem C78_causal : forall m q p g r x,
  (exists u, sent_after m q p g (r ++ x) = sent_after m q p g r ++ u) /\
  (state_after m q p g r <> Waiting -> state_after m q p g (r ++ x) = state_after m q p g r /\ sent_after m q p g (r ++ x) = sent_after m q p g r).
Proof. exact (fun m q p g r x => conj (sent_grows m q p g r x) (state_final m q p g r x)). Qed.
Print Assumptions C78_causal.
(** with any server, application, transport and randomness there is one end, and every course of the conversation leads there *)
Theorem C78_ends : forall m q p g srv, causal_server srv ->
  exists S, conversation srv (sent_after m q p g) S /\ settled srv (sent_after m q p g) S /\
    forall r, conversation srv (sent_after m q p g) r -> exists x, S = r ++ x /\
      (x <> [] -> exists y t, y <> [] /\ srv (sent_after m q p g r) = r ++ y ++ t).
Proof. exact conversation_ends. Qed.
Print Assumptions C78_ends.
(** anything observed on the way is part of what the end shows *)
Theorem C78_outcome : forall m q p g srv S r, causal_server srv -> settled srv (sent_after m q p g) S ->
  conversation srv (sent_after m q p g) r ->
  (exists u, sent_after m q p g S = sent_after m q p g r ++ u) /\
  (state_after m q p g r <> Waiting -> state_after m q p g S = state_after m q p g r).
Proof. exact conversation_outcome. Qed.
Print Assumptions C78_outcome.

(** a server that answers the ClientHello with handshake_failure *)
Definition refusing (out : bytes) : bytes := if (74 <=? length out)%nat then [x15; x03; x03; x00; x02; x02; x28] else [].
Example ex_causal : causal_server refusing.
Proof.
  intros a b. unfold refusing. rewrite app_length. destruct (Nat.leb_spec 74 (length a)), (Nat.leb_spec 74 (length a + length b)); try lia;
    [exists []; apply eq_sym, app_nil_r|eexists; reflexivity|eexists; reflexivity].
Qed.
Example ex_waiting : state_after Release Quit [] (repeat x00 64) [] = Waiting /\ length (sent_after Release Quit [] (repeat x00 64) []) = 74%nat.
Proof. vm_compute. split; reflexivity. Qed.
Example ex_settled : let sent := sent_after Release Quit [] (repeat x00 64) in let S := [x15; x03; x03; x00; x02; x02; x28] in
  conversation refusing sent S /\ settled refusing sent S /\ state_after Release Quit [] (repeat x00 64) S = Failed (Err AlertReceived).
Proof.
  cbv zeta. split; [|split; vm_compute; reflexivity].
  apply (Cv_more _ _ [] _ []); [constructor|vm_compute; reflexivity].
Qed.

(** ** C79: a TLS server and the client are a pipe *)
(** there is one end of the conversation over TLS and one of the same conversation on a plain pipe, and they are the same *)
Theorem C79_pipe : forall m q p g j sv service srv, wf_server sv -> healthy (writer_new p) -> (32 <= length g)%nat -> first_accepted (skipn 32 g) j ->
  used_scalar (draw (skipn 32 g) j) <> 0 -> causal_service service -> tls_server sv service srv -> (forall d, 1 + zlen (said q d) < 2 ^ 64) ->
  exists S r, conversation srv (sent_after m q p g) S /\ settled srv (sent_after m q p g) S /\
    (forall S', conversation srv (sent_after m q p g) S' -> settled srv (sent_after m q p g) S' -> S' = S) /\
    plain_talk service q r /\ service (said q r) = r /\ (forall r', plain_talk service q r' -> service (said q r') = r' -> r' = r) /\
    state_after m q p g S = plain_state q r /\
    exists ss fs1 fs2 fs it, agreed sv (firstn 32 g) (nmul (Z.to_nat (used_scalar (draw (skipn 32 g) j))) Gpt) ss /\
      concat fs = r /\ S = served ss fs1 fs2 ++ sealed_stream (k_server (s_keys ss)) (iv_server (s_keys ss)) (zlen fs2) ApplicationDataTy fs /\
      says it = said q r /\
      sent_after m q p g S = stage_out (Complete ss) ++ sealed_items (k_client (s_keys ss)) (iv_client (s_keys ss)) 1 it.
Proof. exact tls_pipe. Qed.
Print Assumptions C79_pipe.
(** there is a TLS server for every service of limited length *)
Theorem C79_servers : forall sv service, causal_service service -> (forall w, 16 + zlen (service w) < 2 ^ 64) -> exists srv, tls_server sv service srv.
Proof. exact (fun sv service CS B => ex_intro _ (serve sv service) (serve_tls sv service CS B)). Qed.
Print Assumptions C79_servers.
(** a request, its answer, and the end *)
Example ex_ping : forall m, exists srv S, let sent := sent_after m (ping 2) [] one_tape in
  causal_server srv /\ conversation srv sent S /\ settled srv sent S /\
  state_after m (ping 2) [] one_tape S = Ended [Wrote (Ok 2); Got (Ok [x61; x62]); Closed (Ok tt)].
Proof.
  intros m. pose proof (serve_tls plain_server echo echo_causal echo_bounded) as T.
  destruct (tls_pipe m (ping 2) [] one_tape 0 plain_server echo _ plain_wf (Forall_nil _) ltac:(apply Nat.leb_le; reflexivity) one_accepted ltac:(rewrite one_scalar; discriminate) echo_causal T (ping_short 2))
    as (S & r & C & F & _ & P & E & U & St & _).
  destruct (ping_end 2) as (P' & E'). rewrite <- (U _ P' E') in St. exists (serve plain_server echo), S. split; [apply T|]. split; [exact C|]. split; [exact F|exact St].
Qed.
(** a read with too large a buffer waits for ever, with the answer in hand (C65) *)
Example ex_ping_stuck : forall m, exists srv S, let sent := sent_after m (ping 3) [] one_tape in
  causal_server srv /\ conversation srv sent S /\ settled srv sent S /\ state_after m (ping 3) [] one_tape S = Waiting.
Proof.
  intros m. pose proof (serve_tls plain_server echo echo_causal echo_bounded) as T.
  destruct (tls_pipe m (ping 3) [] one_tape 0 plain_server echo _ plain_wf (Forall_nil _) ltac:(apply Nat.leb_le; reflexivity) one_accepted ltac:(rewrite one_scalar; discriminate) echo_causal T (ping_short 3))
    as (S & r & C & F & _ & P & E & U & St & _).
  destruct (ping_end 3) as (P' & E'). rewrite <- (U _ P' E') in St. exists (serve plain_server echo), S. split; [apply T|]. split; [exact C|]. split; [exact F|exact St].
Qed.
