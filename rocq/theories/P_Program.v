(** Conversations of programs that use the whole public interface (C86); the structure is that of [P_Talk2.v]. *)
From Verif Require Import Spec_Program P_Util P_Codec P_RecordW P_RecordR P_Record P_Record2 P_Halt P_Client P_Client2 P_App P_App2 P_App3 P_Talk P_Talk2 P_Talk3 P_Api.
From Coq Require Import ZifyBool ZifyNat ZifyN.
Local Open Scope list_scope.
#[local] Opaque aead_seal aead_decrypt aead_encrypt compute_keys SHA256 HMAC PRF.

Lemma wg_wop m o : w_grows (run_op m o).
Proof.
  destruct o; cbn [run_op].
  - apply wg_bind; [apply wg_ret|]. intros r. apply wg_record.
  - apply wg_fragments.
  - apply wg_handshake.
  - apply wg_alert.
  - apply wg_ccs.
  - apply wg_app.
  - apply wg_set_enc.
  - apply wg_set_iv.
Qed.
Lemma good_map {A B} (f : A -> B) (x : M client A) : good x -> good (fmap f x).
Proof. intros H. apply good_bind; [exact H|]. intros a. apply good_const. Qed.
Lemma rc_map {A B} (f : A -> B) (x : M reader A) : (forall r b, r_causal x r b) -> forall r b, r_causal (fmap f x) r b.
Proof. intros H r b. apply rc_bind; [apply H|]. intros a r1 b1 _. apply rc_ret. Qed.
Lemma rc_rop m o r b : r_causal (do_rop m o) r b.
Proof.
  destruct o; cbn [do_rop]; apply rc_map; intros; first [apply rc_message|apply rc_app|apply rc_handshake|apply rc_ccs|apply rc_set_dec|apply rc_set_iv].
Qed.
(** every call that is not [read] *)
Lemma good_send m k : good (send_tls_alert m k).
Proof.
  split.
  - intros c. unfold send_tls_alert. destruct k; try (exists []; rewrite app_nil_r; reflexivity);
      match goal with |- context [on_writer ?a c] => destruct (g_writer a (wg_alert m _) c) as (u & E); exists u; rewrite <- E; destruct (on_writer a c) as [[| | |] c']; reflexivity end.
  - intros c b. destruct (send_pure m k c) as (x & c' & S). exact (cc_pure _ c b x c' S).
Qed.
Lemma good_flush : good client_flush.
Proof. apply good_const. Qed.
Lemma api_good m o : (forall n, o <> A_read n) -> good (do_api m o).
Proof.
  intros N. destruct o as [n| | | | | | | | | | |]; cbn [do_api]; [destruct (N n eq_refl)|..].
  - apply good_map. apply good_bind; [|intros; apply good_const]. apply good_or_alert, good_writer, wg_app.
  - apply good_map. apply good_or_alert, good_writer, wg_app.
  - apply good_map, good_flush.
  - apply good_map, good_writer, wg_alert.
  - apply good_map, good_send.
  - apply good_map, good_writer, wg_wop.
  - apply good_map, good_writer, wg_record.
  - apply good_reader. intros. apply rc_rop.
  - apply good_map, good_writer, wg_write_all.
  - apply good_map, good_reader. intros. apply rc_read.
  - apply good_map, good_rng.
Qed.
Lemma api_wait_out m o c b x c' : side_of o = Reading -> c_wait (do_api m o) c b x c' -> c_out c' = c_out c.
Proof.
  intros Sd (N & W & _). destruct (like_canon b [RErr]) as (s & L). pose proof (waited N W s L) as W0. clear W. rename W0 into W. apply do_frame in W as (F & _).
  specialize (F Writing). rewrite Sd in F. specialize (F ltac:(discriminate)). cbn [part_of csrc c_writer] in F. unfold c_out. congruence.
Qed.
Lemma writing_done m o c b : side_of o <> Reading -> exists a c', c_done (do_api m o) c b a c' b.
Proof.
  intros Sd. assert (H : exists x c', forall s, do_api m o (csrc c s) = (x, csrc c' s)).
  { destruct (side_of o) eqn:E; [congruence| |].
    - destruct (writing_op m o E) as (a & H). destruct (a (c_writer c)) as [x w] eqn:Ea. exists x, (Client (c_reader c) w (c_rng c) (c_buf c)).
      intros s. rewrite H. unfold on_writer. cbn [csrc c_writer]. rewrite Ea. reflexivity.
    - destruct (drawing_op m o E) as (a & H). destruct (a (c_rng c)) as [x w] eqn:Ea. exists x, (Client (c_reader c) (c_writer c) w (c_buf c)).
      intros s. rewrite H. unfold on_rng. cbn [csrc c_rng]. rewrite Ea. reflexivity. }
  destruct H as (x & c' & H). exists x, c'. split; [exists []; reflexivity|]. intros t s L. exists s. auto.
Qed.
Lemma api_causal m o c b :
  (exists a c' b', c_done (do_api m o) c b a c' b') \/ (exists a c', c_wait (do_api m o) c b a c' /\ c_out c' = c_out c).
Proof.
  destruct (side_beq (side_of o) Reading) eqn:Sd.
  2: { left. destruct (writing_done m o c b) as (a & c' & D); [intros X; apply beq_side in X; congruence|]. eauto. }
  apply beq_side in Sd. destruct o as [n| | | | | | | |o| |n|]; try discriminate Sd.
  - destruct (rd_causal m n (S (n + length b)) [] c b) as [(x & c' & b' & (P & H) & Q)|(d & c' & N & Q & H)].
    { cbn [length]. lia. }
    + left. exists (match x with Ok v => Ok (V_bytes v) | Err k => Err k | Panic => Panic | Diverge => Diverge end), c', b'. split; [exact P|]. intros t s L. destruct (H t s L) as (s' & R & L'). exists s'.
      split; [|exact L']. cbn [do_api]. rewrite fmap_run, (rd_read _ _ _ _ _ R). reflexivity.
    + right. exists (Ok (V_bytes d)), c'. split; [|unfold c_out; rewrite Q; reflexivity]. split; [exact N|]. split.
      * intros t t' s Ht L. cbn [do_api]. rewrite fmap_run, (rd_read _ _ _ _ _ (H t t' s Ht L)). reflexivity.
      * intros t s L. exists []. rewrite app_nil_r. cbn [do_api]. rewrite fmap_run. unfold c_out. rewrite Q. cbn [snd].
        rewrite (P_Talk2.read_writer m n (csrc c s)). reflexivity.
  - destruct (proj2 (api_good m (A_reader o) ltac:(discriminate)) c b) as [D|(c' & W)]; [left; exact D|right]. exists (Err IoFailure), c'. split; [exact W|]. eapply api_wait_out; [|exact W]. reflexivity.
  - destruct (proj2 (api_good m (A_raw_read n) ltac:(discriminate)) c b) as [D|(c' & W)]; [left; exact D|right]. exists (Err IoFailure), c'. split; [exact W|]. eapply api_wait_out; [|exact W]. reflexivity.
Qed.
Lemma api_grows m o c : exists u, c_out (snd (do_api m o c)) = c_out c ++ u.
Proof.
  destruct o as [n| | | | | | | | | | |]; try (apply api_good; discriminate).
  exists []. rewrite app_nil_r. cbn [do_api]. rewrite fmap_run. cbn [snd]. unfold c_out. rewrite P_Talk2.read_writer. reflexivity.
Qed.
Lemma execute_grows m q : forall c, exists u, c_out (snd (execute m q c)) = c_out c ++ u.
Proof.
  induction q as [|o next IH]; intros c; [exists []; rewrite app_nil_r; reflexivity|]. cbn [execute].
  destruct (api_grows m o c) as (u & E). destruct (do_api m o c) as [a c1]. cbn [snd] in E.
  destruct (starved c1); [eauto|]. destruct (stops a); [eauto|]. destruct (IH a c1) as (u2 & E2). exists (u ++ u2).
  rewrite E in E2. rewrite app_assoc, <- E2. destruct (execute m (next a) c1). reflexivity.
Qed.
Lemma execute_causal m q : forall c b,
  (exists l c' b', forall t s, t <> [] -> like b t s -> exists s', execute m q (csrc c s) = (Some l, csrc c' s') /\ like b' t s') \/
  (exists c', (forall s, like b [RErr] s -> execute m q (csrc c s) = (None, c')) /\
     forall t s, t <> [] -> like b t s -> exists u, c_out (snd (execute m q (csrc c s))) = c_out c' ++ u).
Proof.
  induction q as [|o next IH]; intros c b.
  - left. exists [], c, b. intros t s _ L. exists s. auto.
  - destruct (api_causal m o c b) as [(a & c1 & b1 & _ & D)|(a & c1 & (N & W & O) & _)].
    + destruct (stops a) eqn:Cr.
      { left. exists [a], c1, b1. intros t s T L. destruct (D t s L) as (s1 & E & L1). exists s1. split; [|exact L1].
        cbn [execute]. rewrite E, (starved_csrc _ _ _ _ L1 T), Cr. reflexivity. }
      destruct (IH a c1 b1) as [(l & c2 & b2 & H)|(c2 & H & H2)].
      * left. exists (a :: l), c2, b2. intros t s T L. destruct (D t s L) as (s1 & E & L1). destruct (H t s1 T L1) as (s2 & E2 & L2).
        exists s2. split; [|exact L2]. cbn [execute]. rewrite E, (starved_csrc _ _ _ _ L1 T), Cr, E2. reflexivity.
      * right. exists c2. split.
        -- intros s L. destruct (D _ s L) as (s1 & E & L1). cbn [execute]. rewrite E, (starved_csrc _ _ _ _ L1) by discriminate. rewrite Cr, (H s1 L1). reflexivity.
        -- intros t s T L. destruct (D t s L) as (s1 & E & L1). destruct (H2 t s1 T L1) as (u & U). exists u. rewrite <- U.
           cbn [execute]. rewrite E, (starved_csrc _ _ _ _ L1 T), Cr. destruct (execute m (next a) (csrc c1 s1)). reflexivity.
    + right. exists c1. split.
      * intros s L. cbn [execute]. rewrite (waited N W s L), (starved_nil _ N). reflexivity.
      * intros t s T L. destruct (O t s L) as (u & U). cbn [execute]. destruct (do_api m o (csrc c s)) as [a2 c2]. cbn [snd] in U.
        destruct (starved c2); [eauto|]. destruct (stops a2); [eauto|]. destruct (execute_grows m (next a2) c2) as (u2 & U2). exists (u ++ u2).
        rewrite U in U2. rewrite app_assoc, <- U2. destruct (execute m (next a2) c2). reflexivity.
Qed.
Lemma engage_causal m q p g b :
  (exists x c' b', x <> Pending /\ forall t s, t <> [] -> like b t s -> exists s', engage m q p g s = (x, csrc c' s') /\ like b' t s') \/
  (exists c', (forall s, like b [RErr] s -> engage m q p g s = (Pending, c')) /\
     forall t s, t <> [] -> like b t s -> exists u, c_out (snd (engage m q p g s)) = c_out c' ++ u).
Proof.
  destruct (new_causal m p g b) as [(x & c1 & b1 & _ & D)|(c1 & N & W & O)].
  - assert (E : forall t s, like b t s -> exists s1, client_new m s p g = (x, csrc c1 s1) /\ like b1 t s1).
    { intros t s L. unfold client_new. rewrite init_src. exact (D t s L). }
    assert (F : (exists u, x = Ok u) \/ (forall u, x <> Ok u)) by (destruct x; eauto; right; discriminate).
    destruct F as [([] & ->)|F].
    + destruct (execute_causal m q c1 b1) as [(l & c2 & b2 & H)|(c2 & H & H2)].
      * left. exists (Over l), c2, b2. split; [discriminate|]. intros t s T L. destruct (E t s L) as (s1 & E1 & L1). destruct (H t s1 T L1) as (s2 & E2 & L2).
        exists s2. split; [|exact L2]. unfold engage. rewrite E1, (starved_csrc _ _ _ _ L1 T), E2. reflexivity.
      * right. exists c2. split.
        -- intros s L. destruct (E _ s L) as (s1 & E1 & L1). unfold engage. rewrite E1, (starved_csrc _ _ _ _ L1) by discriminate. rewrite (H s1 L1). reflexivity.
        -- intros t s T L. destruct (E t s L) as (s1 & E1 & L1). destruct (H2 t s1 T L1) as (u & U). exists u. rewrite <- U.
           unfold engage. rewrite E1, (starved_csrc _ _ _ _ L1 T). destruct (execute m q (csrc c1 s1)). reflexivity.
    + left. exists (Refused x), c1, b1. split; [discriminate|]. intros t s T L. destruct (E t s L) as (s1 & E1 & L1). exists s1. split; [|exact L1].
      unfold engage. rewrite E1, (starved_csrc _ _ _ _ L1 T). destruct x as [[]| | |]; try reflexivity. destruct (F tt eq_refl).
  - right. exists c1. split.
    + intros s L. unfold engage, client_new. rewrite init_src, (waited N W s L), (starved_nil _ N). reflexivity.
    + intros t s T L. destruct (O t s L) as (u & U). unfold engage, client_new. rewrite init_src. destruct (or_alert m (client_handshake m) _) as [x c2]. cbn [snd] in U.
      destruct (starved c2); [eauto|]. destruct x as [[]| | |]; eauto. destruct (execute_grows m q c2) as (u2 & U2). exists (u ++ u2).
      rewrite U in U2. rewrite app_assoc, <- U2. destruct (execute m q c2). reflexivity.
Qed.

(** ** All of this in terms of the bytes that have arrived *)
Lemma engage_splitting m q p g r s : arrived r s ->
  fst (engage m q p g s) = at_stage m q p g r /\ c_out (snd (engage m q p g s)) = put_out m q p g r.
Proof.
  intros A. unfold at_stage, put_out. pose proof (like_feed r) as F.
  destruct (engage_causal m q p g r) as [(x & c' & b' & _ & H)|(c' & H & _)].
  - destruct (H [RErr] s ltac:(discriminate) A) as (s1 & E1 & _). destruct (H [RErr] _ ltac:(discriminate) F) as (s2 & E2 & _). rewrite E1, E2. auto.
  - rewrite (H s A), (H _ F). auto.
Qed.
Lemma out_grows m q p g r x : exists u, put_out m q p g (r ++ x) = put_out m q p g r ++ u.
Proof.
  assert (D : x = [] \/ x <> []) by (destruct x; auto; right; discriminate). destruct D as [-> | N].
  { rewrite !app_nil_r. exists []. rewrite app_nil_r. reflexivity. }
  destruct (two_parts r x N) as (s & L & A). destruct (engage_splitting m q p g _ _ A) as (_ & <-).
  unfold put_out. pose proof (like_feed r) as F.
  destruct (engage_causal m q p g r) as [(y & c' & b' & _ & H)|(c' & H & H2)].
  - destruct (H [RData x; RErr] s ltac:(discriminate) L) as (s1 & E1 & _). destruct (H [RErr] _ ltac:(discriminate) F) as (s2 & E2 & _). rewrite E1, E2.
    exists []. rewrite app_nil_r. reflexivity.
  - rewrite (H _ F). exact (H2 [RData x; RErr] s ltac:(discriminate) L).
Qed.
Lemma stage_final m q p g r x : at_stage m q p g r <> Pending ->
  at_stage m q p g (r ++ x) = at_stage m q p g r /\ put_out m q p g (r ++ x) = put_out m q p g r.
Proof.
  intros NW. assert (D : x = [] \/ x <> []) by (destruct x; auto; right; discriminate). destruct D as [-> | N].
  { rewrite !app_nil_r. auto. }
  destruct (two_parts r x N) as (s & L & A). destruct (engage_splitting m q p g _ _ A) as (<- & <-).
  unfold at_stage, put_out in *. pose proof (like_feed r) as F.
  destruct (engage_causal m q p g r) as [(y & c' & b' & _ & H)|(c' & H & _)].
  - destruct (H [RData x; RErr] s ltac:(discriminate) L) as (s1 & E1 & _). destruct (H [RErr] _ ltac:(discriminate) F) as (s2 & E2 & _). rewrite E1, E2. auto.
  - exfalso. apply NW. rewrite (H _ F). reflexivity.
Qed.

(** ** Where a conversation ends *)
Lemma execute_unique m q c b s1 s2 : like b [RErr] s1 -> like b [RErr] s2 ->
  fst (execute m q (csrc c s1)) = fst (execute m q (csrc c s2)) /\ c_out (snd (execute m q (csrc c s1))) = c_out (snd (execute m q (csrc c s2))).
Proof.
  intros L1 L2. destruct (execute_causal m q c b) as [(l & c' & b' & H)|(c' & H & _)].
  - destruct (H [RErr] s1 ltac:(discriminate) L1) as (t1 & E1 & _). destruct (H [RErr] s2 ltac:(discriminate) L2) as (t2 & E2 & _). rewrite E1, E2. auto.
  - rewrite (H _ L1), (H _ L2). auto.
Qed.
Section Settle2.
  Variable m : mode.
  Variable q0 : program.
  Variable p : list wevent.
  Variable g : rng.
  Variable srv : bytes -> bytes.
  Hypothesis causal : causal_server srv.
  Notation sent := (put_out m q0 p g).
  Notation conv := (conversation srv sent).

  Lemma conv_prefix2 r : conv r -> exists t, srv (sent r) = r ++ t.
  Proof using causal.
    destruct 1 as [|r x t H E]; [eexists; reflexivity|]. destruct (out_grows m q0 p g r x) as (u & ->).
    destruct (causal (sent r) u) as (v & ->). rewrite E. exists (t ++ v). rewrite <- !app_assoc. reflexivity.
  Qed.
  Lemma conv_below2 S r : settled srv sent S -> conv r -> exists x, S = r ++ x.
  Proof using causal.
    intros F. induction 1 as [|r x t H (y & IH) E]; [exists S; reflexivity|].
    pose proof F as F'. unfold settled in F'. destruct (out_grows m q0 p g r y) as (u & U). rewrite <- IH in U.
    destruct (causal (sent r) u) as (v & V). rewrite <- U, F', E in V. exists (t ++ v). rewrite V, <- !app_assoc. reflexivity.
  Qed.
  Lemma stays_settles2 R : conv R -> (forall x, sent (R ++ x) = sent R) -> exists S, conv S /\ settled srv sent S.
  Proof using causal.
    intros C K. destruct (conv_prefix2 R C) as (t & E). exists (R ++ t). split; [apply (Cv_more _ _ R t [] C); rewrite app_nil_r; exact E|].
    unfold settled. rewrite K. exact E.
  Qed.
  Definition ctx2 (q : program) (c : client) (b R : bytes) : Prop :=
    forall x s, like (b ++ x) [RErr] s -> sent (R ++ x) = c_out (snd (execute m q (csrc c s))).
  Lemma ctx2_const q c b R out : ctx2 q c b R -> (forall t s, t <> [] -> like b t s -> c_out (snd (execute m q (csrc c s))) = out) -> forall x, sent (R ++ x) = sent R.
  Proof using.
    intros H K. assert (A : forall x, sent (R ++ x) = out).
    { intros x. destruct (split_like b x) as (t & s & T & L & L2 & _). rewrite (H x s L2). eapply K; eassumption. }
    intros x. rewrite (A x). rewrite <- (A []), app_nil_r. reflexivity.
  Qed.
  Lemma ctx2_next o next c b R a c' b' : ctx2 (Call o next) c b R -> c_done (do_api m o) c b a c' b' -> stops a = false -> ctx2 (next a) c' b' R.
  Proof using.
    intros H (_ & D) Cr x s L. destruct (split_like b x) as (t & s0 & T & L0 & L2 & G). rewrite (H x s0 L2). cbn [execute].
    destruct (D t s0 L0) as (s1 & E & L1). rewrite E, (starved_csrc _ _ _ _ L1 T), Cr.
    destruct (execute_unique m (next a) c' (b' ++ x) s1 s (G _ _ L1) L) as (_ & U). rewrite <- U. destruct (execute m (next a) (csrc c' s1)). reflexivity.
  Qed.
  Lemma ctx2_more q c b R x : ctx2 q c b R -> ctx2 q c (b ++ x) (R ++ x).
  Proof using. intros H y s L. rewrite <- app_assoc. apply H. rewrite app_assoc. exact L. Qed.
  Lemma settle_program q : forall c b R, ctx2 q c b R -> conv R -> exists S, conv S /\ settled srv sent S.
  Proof using causal.
    induction q as [|o next IH]; intros c b R H C.
    - apply (stays_settles2 R C). apply (ctx2_const _ _ _ _ (c_out c) H). reflexivity.
    - assert (ST : forall b R, ctx2 (Call o next) c b R -> conv R -> (exists a c' b', c_done (do_api m o) c b a c' b') -> exists S, conv S /\ settled srv sent S).
      { intros b0 R0 H0 C0 (a & c' & b' & D). destruct (stops a) eqn:Cr.
        - apply (stays_settles2 R0 C0). apply (ctx2_const _ _ _ _ (c_out c') H0). intros t s T L. destruct D as (_ & D). destruct (D t s L) as (s1 & E & L1).
          cbn [execute]. rewrite E, (starved_csrc _ _ _ _ L1 T), Cr. reflexivity.
        - eapply IH; [eapply ctx2_next; eassumption|exact C0]. }
      destruct (api_causal m o c b) as [D|(a & c1 & (N & W & _) & O)]; [eapply ST; eassumption|].
      destruct (conv_prefix2 R C) as (t & E).
      assert (C1 : conv (R ++ t)) by (apply (Cv_more _ _ R t [] C); rewrite app_nil_r; exact E).
      pose proof (ctx2_more _ _ _ _ t H) as H1.
      destruct (api_causal m o c (b ++ t)) as [D|(a2 & c2 & (N2 & W2 & _) & O2)]; [eapply ST; eassumption|].
      exists (R ++ t). split; [exact C1|]. unfold settled.
      assert (A1 : sent R = c_out c).
      { specialize (H [] (feed (b ++ [])) (like_feed _)). rewrite app_nil_r in H. rewrite H. cbn [execute].
        rewrite (waited N W (feed (b ++ []))); [|rewrite app_nil_r; apply like_feed]. rewrite (starved_nil _ N). exact O. }
      assert (A2 : sent (R ++ t) = c_out c).
      { rewrite (H t (feed (b ++ t)) (like_feed _)). cbn [execute].
        rewrite (waited N2 W2 (feed (b ++ t)) (like_feed _)). rewrite (starved_nil _ N2). exact O2. }
      rewrite A2, <- A1. exact E.
  Qed.
  (** *** The handshake *)
  Variable B : nat.
  Hypothesis bound : forall s c, client_new m s p g = (Err IoFailure, c) -> (length (c_out c) <= B)%nat.
  Lemma settle_connection : forall n R, conv R -> (B - length (sent R) < n)%nat -> exists S, conv S /\ settled srv sent S.
  Proof using causal bound.
    induction n as [|n IH]; intros R C Ln; [lia|].
    assert (ST : forall R, conv R -> (exists x c' b', c_done (or_alert m (client_handshake m)) (client_init [] p g) R x c' b') -> exists S, conv S /\ settled srv sent S).
    { intros R0 C0 (x & c1 & b1 & _ & D).
      assert (E : forall t s, like R0 t s -> exists s1, client_new m s p g = (x, csrc c1 s1) /\ like b1 t s1).
      { intros t s L. unfold client_new. rewrite init_src. exact (D t s L). }
      assert (F : (exists u, x = Ok u) \/ (forall u, x <> Ok u)) by (destruct x; eauto; right; discriminate).
      destruct F as [([] & ->)|F].
      - apply (settle_program q0 c1 b1 R0); [|exact C0]. intros y s L. destruct (split_like R0 y) as (t & s0 & T & L0 & L2 & G).
        destruct (engage_splitting m q0 p g _ _ L2) as (_ & <-). destruct (E t s0 L0) as (s1 & E1 & L1).
        unfold engage. rewrite E1, (starved_csrc _ _ _ _ L1 T).
        destruct (execute_unique m q0 c1 (b1 ++ y) s1 s (G _ _ L1) L) as (_ & U). rewrite <- U. destruct (execute m q0 (csrc c1 s1)). reflexivity.
      - apply (stays_settles2 R0 C0). intros y. assert (A : forall y, sent (R0 ++ y) = c_out c1).
        { intros z. destruct (split_like R0 z) as (t & s0 & T & L0 & L2 & G). destruct (engage_splitting m q0 p g _ _ L2) as (_ & <-).
          destruct (E t s0 L0) as (s1 & E1 & L1). unfold engage. rewrite E1, (starved_csrc _ _ _ _ L1 T). destruct x as [[]| | |]; try reflexivity. destruct (F tt eq_refl). }
        rewrite A. rewrite <- (A []), app_nil_r. reflexivity. }
    assert (WT : forall R, (exists c', c_wait (or_alert m (client_handshake m)) (client_init [] p g) R (Err IoFailure) c') -> (length (sent R) <= B)%nat).
    { intros R0 (c' & N & W & _). assert (E : client_new m (feed R0) p g = (Err IoFailure, c')) by (unfold client_new; rewrite init_src; apply (waited N W), like_feed).
      unfold put_out, engage. rewrite E, (starved_nil _ N). eapply bound. exact E. }
    destruct (new_causal m p g R) as [D|W]; [apply (ST R C D)|].
    destruct (conv_prefix2 R C) as (t & E).
    assert (C1 : conv (R ++ t)) by (apply (Cv_more _ _ R t [] C); rewrite app_nil_r; exact E).
    destruct (new_causal m p g (R ++ t)) as [D|W1]; [apply (ST _ C1 D)|].
    destruct (out_grows m q0 p g R t) as (u & U). destruct u as [|z u].
    - rewrite app_nil_r in U. exists (R ++ t). split; [exact C1|]. unfold settled. rewrite U. exact E.
    - apply (IH (R ++ t) C1). apply WT in W1. rewrite U, app_length in *. cbn [length] in *. lia.
  Qed.
End Settle2.

Lemma program_ends m q p g srv : causal_server srv ->
  exists S, conversation srv (put_out m q p g) S /\ settled srv (put_out m q p g) S /\
    forall r, conversation srv (put_out m q p g) r -> exists x, S = r ++ x /\
      (x <> [] -> exists y t, y <> [] /\ srv (put_out m q p g r) = r ++ y ++ t).
Proof.
  intros CS. destruct (settle_connection m q p g srv CS 330 (new_bound m p g) 331 [] (Cv_start _ _)) as (S & C & F); [lia|].
  exists S. split; [exact C|]. split; [exact F|]. intros r Cr. destruct (conv_below2 m q p g srv CS S r F Cr) as (x & E).
  exists x. split; [exact E|]. intros N. destruct (conv_prefix2 m q p g srv CS r Cr) as ([|z t] & P).
  - exfalso. rewrite app_nil_r in P. destruct (conv_below2 m q p g srv CS r S P C) as (y & Ey). rewrite E, <- app_assoc in Ey.
    rewrite <- (app_nil_r r) in Ey at 1. apply app_inv_head in Ey. symmetry in Ey. apply app_eq_nil in Ey as (-> & _). congruence.
  - exists (z :: t), []. split; [discriminate|]. rewrite app_nil_r. exact P.
Qed.
(** what happened at the end decides everything that was observed on the way *)
Lemma program_outcome m q p g srv S r : causal_server srv -> settled srv (put_out m q p g) S ->
  conversation srv (put_out m q p g) r ->
  (exists u, put_out m q p g S = put_out m q p g r ++ u) /\
  (at_stage m q p g r <> Pending -> at_stage m q p g S = at_stage m q p g r).
Proof.
  intros CS F C. destruct (conv_below2 m q p g srv CS S r F C) as (x & ->). split; [apply out_grows|].
  intros N. apply (stage_final m q p g r x N).
Qed.

(** the calls a program made, as a history *)
Lemma execute_run m q : forall c l c', execute m q c = (Some l, c') -> api_run m (made q l) c = (l, c').
Proof.
  induction q as [|o next IH]; intros c l c' E; cbn [execute] in E.
  { inversion E; subst. reflexivity. }
  destruct (do_api m o c) as [a c1] eqn:D. destruct (starved c1); [discriminate|].
  destruct (stops a) eqn:Sa.
  - inversion E; subst. cbn [made api_run]. rewrite D. destruct a; try discriminate Sa; reflexivity.
  - destruct (execute m (next a) c1) as [[l2|] c2] eqn:X; cbn in E; [|discriminate]. inversion E; subst. cbn [made api_run].
    specialize (IH a c1 l2 c' X). rewrite D. destruct a; try discriminate Sa; rewrite IH; reflexivity.
Qed.
Lemma execute_some_run m q : forall c, exists l, snd (execute m q c) = snd (api_run m l c).
Proof.
  induction q as [|o next IH]; intros c; cbn [execute]; [exists []; reflexivity|].
  destruct (do_api m o c) as [a c1] eqn:D. destruct (starved c1) eqn:St; [|destruct (stops a) eqn:Sa].
  - exists [o]. cbn [api_run]. rewrite D. destruct a; reflexivity.
  - exists [o]. cbn [api_run]. rewrite D. destruct a; reflexivity.
  - destruct (IH a c1) as (l & E). exists (o :: l). cbn [api_run]. rewrite D. destruct (execute m (next a) c1) as [l2 c2]. cbn [snd] in *.
    destruct a; try discriminate Sa; destruct (api_run m l c1); exact E.
Qed.
Lemma engage_over m q p g s l : fst (engage m q p g s) = Over l ->
  exists c, client_new m s p g = (Ok tt, c) /\ api_run m (made q l) c = (l, snd (engage m q p g s)).
Proof.
  unfold engage. destruct (client_new m s p g) as [x c] eqn:N. destruct (starved c); [discriminate|].
  destruct x as [[]|k| |]; try discriminate. destruct (execute m q c) as [[l2|] c2] eqn:X; cbn [fst snd]; [|discriminate].
  intros E. inversion E; subst. exists c. split; [reflexivity|]. apply execute_run, X.
Qed.
(** whatever has happened after the construction is a history of calls on a fixed input *)
Lemma engage_history m q p g s c : client_new m s p g = (Ok tt, c) -> exists l, snd (engage m q p g s) = snd (api_run m l c).
Proof.
  intros N. unfold engage. rewrite N. destruct (starved c); [exists []; reflexivity|].
  destruct (execute_some_run m q c) as (l & E). exists l. destruct (execute m q c). exact E.
Qed.
Lemma engage_nonces m q p g r c : client_new m (feed r) p g = (Ok tt, c) -> healthy (writer_new p) ->
  let log := w_log (c_writer (snd (engage m q p g (feed r)))) in zlen log <= 2 ^ 64 ->
  exists ss, reached m (feed r) g (Complete ss) /\
    (forall k e, nth_error log k = Some e -> log_nonce e = rfc_nonce (iv_client (s_keys ss)) (Z.of_nat k)) /\
    NoDup (map log_nonce log).
Proof.
  intros N H log Hl. destruct (engage_history m q p g _ c N) as (l & E). subst log. rewrite E in *.
  destruct (api_nonces m _ p g c l N H Hl) as (ss & R & K & D). exists ss. split; [exact R|]. split; [|exact D].
  intros k e He. apply (K k e He).
Qed.

(** ** Applications as programs *)
Lemma api_call m o c : do_call m o c = (back o (fst (do_api m (api_of o) c)), snd (do_api m (api_of o) c)) /\
  crashed (back o (fst (do_api m (api_of o) c))) = stops (fst (do_api m (api_of o) c)).
Proof.
  destruct o; cbn [do_call api_of do_api]; rewrite fmap_run.
  - destruct (client_read m n c) as [[x| | |] c']; split; reflexivity.
  - destruct (client_write m buf c) as [[x| | |] c']; split; reflexivity.
  - destruct (client_close m c) as [[[]| | |] c']; split; reflexivity.
Qed.
Lemma told_nil q : told q [] = [].
Proof. destruct q; reflexivity. Qed.
Lemma execute_embed m q : forall c, perform m q c = (option_map (told q) (fst (execute m (embed q) c)), snd (execute m (embed q) c)).
Proof.
  induction q as [|o next IH]; intros c; cbn [perform execute embed]; [reflexivity|].
  destruct (api_call m o c) as (-> & Cr). destruct (do_api m (api_of o) c) as [x c1]. cbn [fst snd] in *. rewrite Cr.
  destruct (starved c1); [reflexivity|]. destruct (stops x); [cbn [fst snd option_map told]; rewrite told_nil; reflexivity|].
  rewrite IH. destruct (execute m (embed (next (back o x))) c1) as [[l|] c2]; reflexivity.
Qed.
Lemma engage_embed m q p g r :
  state_after m q p g r = match at_stage m (embed q) p g r with Pending => Waiting | Refused x => Failed x | Over l => Ended (told q l) end /\
  sent_after m q p g r = put_out m (embed q) p g r.
Proof.
  unfold state_after, sent_after, at_stage, put_out, conduct, engage. destruct (client_new m (feed r) p g) as [x c].
  destruct (starved c); [split; reflexivity|]. destruct x as [[]| | |]; try (split; reflexivity).
  rewrite execute_embed. destruct (execute m (embed q) c) as [[l|] c']; split; reflexivity.
Qed.
Lemma over_history m q p g r c : client_new m (feed r) p g = (Ok tt, c) ->
  forall l, at_stage m q p g r = Over l -> api_run m (made q l) c = (l, snd (engage m q p g (feed r))).
Proof. intros N l E. destruct (engage_over m q p g (feed r) l E) as (c' & N' & R). rewrite N in N'. inversion N'; subst. exact R. Qed.
