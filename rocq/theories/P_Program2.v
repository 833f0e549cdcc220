(** A program in conversation with a TLS server (example for C86). *)
From Verif Require Import Spec_Program Spec_Talk2 P_Util P_Codec P_Client3 P_Client4 P_Talk P_Talk2 P_Talk3 P_Talk4 P_Talk5 P_Server P_Program.
From Coq Require Import ZifyBool ZifyNat ZifyN.
Local Open Scope list_scope.
Local Open Scope Z_scope.

Lemma conversation_ext srv f h r : (forall x, f x = h x) -> conversation srv f r -> conversation srv h r.
Proof. intros E C. induction C as [|r x t C IH H]; [constructor|]. apply (Cv_more _ _ r x t IH). rewrite <- E. exact H. Qed.
Lemma back_write buf x n : back (Write buf) x = Wrote (Ok n) -> x = Ok (V_count n).
Proof. destruct x as [[]| | |]; cbn; intros E; congruence. Qed.
Lemma back_read k x b : back (Read k) x = Got (Ok b) -> x = Ok (V_bytes b).
Proof. destruct x as [[]| | |]; cbn; intros E; congruence. Qed.
Lemma back_close x : back Close x = Closed (Ok tt) -> x = Ok V_done.
Proof. destruct x as [[]| | |]; cbn; intros E; congruence. Qed.
Lemma ended_over q a ls : Ended ls = match a with Pending => Waiting | Refused x => Failed x | Over l => Ended (told q l) end ->
  exists l, a = Over l /\ told q l = ls.
Proof. destruct a as [|x|l]; intros E; try discriminate E. exists l. split; [reflexivity|]. inversion E. reflexivity. Qed.
Lemma ping_told n l x y : told (ping n) l = [Wrote (Ok x); Got (Ok y); Closed (Ok tt)] ->
  exists l', l = Ok (V_count x) :: Ok (V_bytes y) :: Ok V_done :: l'.
Proof.
  intros Hl. unfold ping in Hl. destruct l as [|a1 [|a2 [|a3 l]]]; cbn [told] in Hl; try discriminate Hl.
  exists l. assert (H1 : back (Write [x61; x62]) a1 = Wrote (Ok x)) by congruence.
  assert (H2 : back (Read n) a2 = Got (Ok y)) by congruence. assert (H3 : back Close a3 = Closed (Ok tt)) by congruence.
  rewrite (back_write _ _ _ H1), (back_read _ _ _ H2), (back_close _ H3). reflexivity.
Qed.
Lemma run_len m : forall l c, (length (fst (api_run m l c)) <= length l)%nat.
Proof.
  induction l as [|o l IH]; intros c; cbn [api_run]; [apply le_n|].
  destruct (do_api m o c) as [[x|k| |] c1]; try (cbn; lia); specialize (IH c1); destruct (api_run m l c1); cbn [fst length] in *; lia.
Qed.
Lemma ping_program m : exists srv S, let out := put_out m (embed (ping 2)) [] one_tape in
  causal_server srv /\ conversation srv out S /\ settled srv out S /\
  at_stage m (embed (ping 2)) [] one_tape S = Over [Ok (V_count 2); Ok (V_bytes [x61; x62]); Ok V_done].
Proof.
  pose proof (serve_tls plain_server echo echo_causal echo_bounded) as T.
  destruct (tls_pipe m (ping 2) [] one_tape 0 plain_server echo _ plain_wf (Forall_nil _) ltac:(apply Nat.leb_le; reflexivity) one_accepted ltac:(rewrite one_scalar; discriminate) echo_causal T (ping_short 2))
    as (S & r & C & F & _ & P & E & U & St & _).
  destruct (ping_end 2) as (P' & E'). rewrite <- (U _ P' E') in St. exists (serve plain_server echo), S. cbv zeta. split; [apply T|].
  assert (X : forall x, sent_after m (ping 2) [] one_tape x = put_out m (embed (ping 2)) [] one_tape x) by (intros x; apply engage_embed).
  split; [exact (conversation_ext _ _ _ _ X C)|]. split; [unfold settled in *; rewrite <- X; exact F|].
  destruct (engage_embed m (ping 2) [] one_tape S) as (Es & _). rewrite St in Es.
  assert (Pl : plain_state (ping 2) [x61; x62] = Ended [Wrote (Ok 2); Got (Ok [x61; x62]); Closed (Ok tt)]) by reflexivity.
  rewrite Pl in Es. destruct (ended_over _ _ _ Es) as (l & A & Hl). rewrite A. clear - A Hl.
  destruct (ping_told _ _ _ _ Hl) as ([|a4 l'] & ->); [reflexivity|]. exfalso.
  apply engage_over in A as (c & _ & R).
  match type of R with api_run m ?l ?c = _ => pose proof (run_len m l c) as L2 end. rewrite R in L2. unfold ping in L2. cbn [embed made api_of fst length] in L2. lia.
Qed.
