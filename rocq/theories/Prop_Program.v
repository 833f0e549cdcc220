(** C86: conversations of programs that use the whole public interface. *)
From Verif Require Import Spec_Program Spec_Talk2 P_Util P_Codec P_Client3 P_Client4 P_Talk P_Talk2 P_Talk3 P_Talk4 P_Talk5 P_Server P_Program P_Program2.
From Coq Require Import ZifyBool ZifyNat ZifyN.
Local Open Scope list_scope.
Local Open Scope Z_scope.

(** only the bytes that have arrived count, not the pieces in which they came *)
Theorem C86_splitting : forall m q p g r s, arrived r s ->
  fst (engage m q p g s) = at_stage m q p g r /\ w_out (c_writer (snd (engage m q p g s))) = put_out m q p g r.
Proof. exact engage_splitting. Qed.
Print Assumptions C86_splitting.
(** what has been sent stays sent, and a finished program is finished *)
Theorem C86_causal : forall m q p g r x,
  (exists u, put_out m q p g (r ++ x) = put_out m q p g r ++ u) /\
  (at_stage m q p g r <> Pending -> at_stage m q p g (r ++ x) = at_stage m q p g r /\ put_out m q p g (r ++ x) = put_out m q p g r).
Proof. exact (fun m q p g r x => conj (out_grows m q p g r x) (stage_final m q p g r x)). Qed.
Print Assumptions C86_causal.
(** with any server there is one end, and every course of the conversation leads there *)
Theorem C86_ends : forall m q p g srv, causal_server srv ->
  exists S, conversation srv (put_out m q p g) S /\ settled srv (put_out m q p g) S /\
    forall r, conversation srv (put_out m q p g) r -> exists x, S = r ++ x /\
      (x <> [] -> exists y t, y <> [] /\ srv (put_out m q p g r) = r ++ y ++ t).
Proof. exact program_ends. Qed.
Print Assumptions C86_ends.
Theorem C86_outcome : forall m q p g srv S r, causal_server srv -> settled srv (put_out m q p g) S ->
  conversation srv (put_out m q p g) r ->
  (exists u, put_out m q p g S = put_out m q p g r ++ u) /\
  (at_stage m q p g r <> Pending -> at_stage m q p g S = at_stage m q p g r).
Proof. exact program_outcome. Qed.
Print Assumptions C86_outcome.
(** the state of the client is at every moment that after a history of calls on the bytes that have arrived (so C81 to C85 apply);
    for a finished program it is the history of its own calls, with the answers it got *)
Theorem C86_history : forall m q p g r c, client_new m (feed r) p g = (Ok tt, c) ->
  (exists l, snd (engage m q p g (feed r)) = snd (api_run m l c)) /\
  (forall l, at_stage m q p g r = Over l -> api_run m (made q l) c = (l, snd (engage m q p g (feed r)))).
Proof.
  exact (fun m q p g r c N => conj (engage_history m q p g (feed r) c N) (over_history m q p g r c N)).
Qed.
Print Assumptions C86_history.
(** in particular no nonce is used twice, whatever program and server say to each other *)
Theorem C86_nonces : forall m q p g r c, client_new m (feed r) p g = (Ok tt, c) -> healthy (writer_new p) ->
  let log := w_log (c_writer (snd (engage m q p g (feed r)))) in zlen log <= 2 ^ 64 ->
  exists ss, reached m (feed r) g (Complete ss) /\
    (forall k e, nth_error log k = Some e -> log_nonce e = rfc_nonce (iv_client (s_keys ss)) (Z.of_nat k)) /\
    NoDup (map log_nonce log).
Proof. exact engage_nonces. Qed.
Print Assumptions C86_nonces.
(** the applications of C78 are among the programs *)
Theorem C86_applications : forall m q p g r,
  state_after m q p g r = match at_stage m (embed q) p g r with Pending => Waiting | Refused x => Failed x | Over l => Ended (told q l) end /\
  sent_after m q p g r = put_out m (embed q) p g r.
Proof. exact engage_embed. Qed.
Print Assumptions C86_applications.

(** a program that is refused; one that waits *)
Definition chatty : program := Call A_flush (fun _ => Call (A_reader R_message) (fun _ => Call (A_rng 1) (fun _ => Finish))).
Example ex_refused : at_stage Release chatty [] (repeat x00 64) [x15; x03; x03; x00; x02; x02; x28] = Refused (Err AlertReceived) /\
  at_stage Release chatty [] (repeat x00 64) [x15; x03; x03] = Pending.
Proof. split; vm_compute; reflexivity. Qed.
Example ex_made : made chatty [Ok V_done; Err IoFailure] = [A_flush; A_reader R_message].
Proof. reflexivity. Qed.
(** a request, its answer, and the end *)
Example ex_program : forall m, exists srv S, let out := put_out m (embed (ping 2)) [] one_tape in
  causal_server srv /\ conversation srv out S /\ settled srv out S /\
  at_stage m (embed (ping 2)) [] one_tape S = Over [Ok (V_count 2); Ok (V_bytes [x61; x62]); Ok V_done].
Proof. exact ping_program. Qed.
