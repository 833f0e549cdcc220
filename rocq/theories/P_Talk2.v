(** Conversations (C78): applications, and where a conversation ends. *)
From Verif Require Import Spec_Talk P_Util P_Codec P_RecordW P_RecordR P_Record P_Record2 P_Halt P_Client P_Client2 P_App P_App2 P_App3 P_Talk.
From Coq Require Import ZifyBool ZifyNat ZifyN.
Local Open Scope list_scope.
#[local] Opaque aead_seal aead_decrypt aead_encrypt compute_keys SHA256 HMAC PRF.

Lemma like_size b s : like b [] s -> src_size s = length b.
Proof.
  intros (a & C & E & ->). rewrite app_nil_r. subst b. induction C as [|e a (x & xs & ->) C IH]; [reflexivity|].
  cbn [src_size fold_right stream length]. fold (src_size a). rewrite IH, app_length. lia.
Qed.
Lemma app_shorter m r b d r' b' : r_done (read_application_data m) r b (Ok d) r' b' -> (length b' < length b)%nat.
Proof.
  intros (_ & D). destruct (like_canon b []) as (s & L). destruct (D [] s L) as (s' & E & L').
  apply read_app_src in E. cbn [set_src r_src] in E. rewrite (like_size _ _ L), (like_size _ _ L') in E. exact E.
Qed.
Definition rd_done m len done c b x c' b' : Prop :=
  (exists p, b = p ++ b') /\ forall t s, like b t s -> exists s', rd m len done (csrc c s) x (csrc c' s') /\ like b' t s'.
Lemma rd_causal m len : forall n done c b, (len - length done + length b < n)%nat ->
  (exists x c' b', rd_done m len done c b x c' b' /\ c_writer c' = c_writer c) \/
  (exists d c', r_src (c_reader c') = [] /\ c_writer c' = c_writer c /\ forall t t' s, halts_at t t' -> like b t s -> rd m len done (csrc c s) (Ok d) (csrc c' t')).
Proof.
  induction n as [|n IH]; intros done c b Ln; [lia|].
  destruct (Nat.le_gt_cases len (length done)) as [L|L].
  - left. exists (Ok done), c, b. split; [|reflexivity]. split; [exists []; reflexivity|]. intros t s K. exists s. split; [apply Rd_full; exact L|exact K].
  - destruct (c_buf c) as [|y ys] eqn:B.
    + destruct (rc_app m (c_reader c) b) as [(y & r1 & b1 & D)|(r1 & W)].
      * destruct y as [d|k| |].
        -- pose proof (app_shorter _ _ _ _ _ _ D) as Lb. destruct D as ((p & P) & D).
           destruct (IH (done ++ firstn (len - length done) d) (with_buf c r1 (skipn (len - length done) d)) b1) as [(x & c2 & b2 & ((p2 & P2) & H) & Q)|(d2 & c2 & N2 & Q & H)].
           { rewrite app_length. lia. }
           ++ left. exists x, c2, b2. split; [|exact Q]. split; [exists (p ++ p2); rewrite P, P2, app_assoc; reflexivity|]. intros t s K.
              destruct (D t s K) as (s1 & E & K1). destruct (H t s1 K1) as (s2 & R & K2). exists s2. split; [|exact K2].
              eapply Rd_data; [exact L|exact B|exact E|]. exact R.
           ++ right. exists d2, c2. split; [exact N2|]. split; [exact Q|]. intros t t' s Ht K. destruct (D _ s K) as (s1 & E & K1).
              eapply Rd_data; [exact L|exact B|exact E|]. exact (H t t' s1 Ht K1).
        -- left. exists (Ok done), (with_buf c r1 []), b1. split; [|reflexivity]. destruct D as (P & D). split; [exact P|]. intros t s K.
           destruct (D t s K) as (s1 & E & K1). exists s1. split; [|exact K1]. change (csrc (with_buf c r1 []) s1) with (with_buf (csrc c s) (set_src r1 s1) []). eapply Rd_err; [exact L|exact B|exact E].
        -- left. exists Panic, (with_buf c r1 []), b1. split; [|reflexivity]. destruct D as (P & D). split; [exact P|]. intros t s K.
           destruct (D t s K) as (s1 & E & K1). exists s1. split; [|exact K1]. change (csrc (with_buf c r1 []) s1) with (with_buf (csrc c s) (set_src r1 s1) []). eapply Rd_panic; [exact L|exact B|exact E].
        -- left. exists Diverge, (with_buf c r1 []), b1. split; [|reflexivity]. destruct D as (P & D). split; [exact P|]. intros t s K.
           destruct (D t s K) as (s1 & E & K1). exists s1. split; [|exact K1]. change (csrc (with_buf c r1 []) s1) with (with_buf (csrc c s) (set_src r1 s1) []). eapply Rd_diverge; [exact L|exact B|exact E].
      * right. exists done, (with_buf c (set_src r1 []) []). split; [reflexivity|]. split; [reflexivity|]. intros t t' s Ht K. change (csrc (with_buf c (set_src r1 []) []) t') with (with_buf (csrc c s) (set_src r1 t') []). eapply Rd_err; [exact L|exact B|]. exact (W t t' s Ht K).
    + destruct (IH (done ++ firstn (len - length done) (c_buf c)) (with_buf c (c_reader c) (skipn (len - length done) (c_buf c))) b) as [(x & c2 & b2 & (P2 & H) & Q)|(d2 & c2 & N2 & Q & H)].
      { rewrite app_length, firstn_length, B. cbn [length]. lia. }
      * left. exists x, c2, b2. split; [|exact Q]. split; [exact P2|]. intros t s K. destruct (H t s K) as (s2 & R & K2). exists s2. split; [|exact K2].
        apply Rd_copy; [exact L|cbn [csrc c_buf]; congruence|]. exact R.
      * right. exists d2, c2. split; [exact N2|]. split; [exact Q|]. intros t t' s Ht K. apply Rd_copy; [exact L|cbn [csrc c_buf]; congruence|]. exact (H t t' s Ht K).
Qed.
Lemma read_writer m n c : c_writer (snd (client_read m n c)) = c_writer c.
Proof.
  destruct (client_read m n c) as [x c'] eqn:E. apply read_rd in E. cbn [snd].
  induction E as [done c L|done c x c' L B R IH|done c d r' x c' L B E R IH|done c e r' L B E|done c r' L B E|done c r' L B E]; auto.
Qed.
Lemma cc_app_write m buf c b : exists a c', c_done (do_call m (Write buf)) c b a c' b.
Proof.
  assert (G : exists x c', forall s, client_write_all m buf (csrc c s) = (x, csrc c' s)).
  { unfold client_write_all, or_alert. destruct (write_application_data m buf (c_writer c)) as [y w] eqn:E.
    set (c1 := Client (c_reader c) w (c_rng c) (c_buf c)).
    assert (A : forall s, on_writer (write_application_data m buf) (csrc c s) = (y, csrc c1 s)) by (intros s; unfold on_writer; cbn [csrc c_writer]; rewrite E; reflexivity).
    destruct y as [x|k| |].
    - exists (Ok x), c1. intros s. rewrite A. reflexivity.
    - destruct (send_pure m k c1) as (x & c2 & S). exists (match x with Ok k' => Err k' | Err k' => Err k' | Panic => Panic | Diverge => Diverge end), c2.
      intros s. rewrite A, S. destruct x; reflexivity.
    - exists Panic, c1. intros s. rewrite A. reflexivity.
    - exists Diverge, c1. intros s. rewrite A. reflexivity. }
  destruct G as (x & c' & G). exists (Wrote (match x with Ok _ => Ok (zlen buf) | Err k => Err k | Panic => Panic | Diverge => Diverge end)), c'.
  split; [exists []; reflexivity|]. intros t s L. exists s. split; [|exact L]. unfold do_call, client_write, mbind. rewrite G. destruct x; reflexivity.
Qed.
Lemma call_causal m o c b :
  (exists a c' b', c_done (do_call m o) c b a c' b') \/ (exists a c', c_wait (do_call m o) c b a c' /\ c_out c' = c_out c).
Proof.
  destruct o as [n|buf|].
  - destruct (rd_causal m n (S (n + length b)) [] c b) as [(x & c' & b' & (P & H) & Q)|(d & c' & N & Q & H)].
    { cbn [length]. lia. }
    + left. exists (Got x), c', b'. split; [exact P|]. intros t s L. destruct (H t s L) as (s' & R & L'). exists s'.
      split; [|exact L']. unfold do_call. rewrite (rd_read _ _ _ _ _ R). reflexivity.
    + right. exists (Got (Ok d)), c'. split; [|unfold c_out; rewrite Q; reflexivity]. split; [exact N|]. split.
      * intros t t' s Ht L. unfold do_call. rewrite (rd_read _ _ _ _ _ (H t t' s Ht L)). reflexivity.
      * intros t s L. exists []. rewrite app_nil_r. unfold do_call, c_out. rewrite Q.
        pose proof (read_writer m n (csrc c s)) as W. destruct (client_read m n (csrc c s)). cbn [snd] in *. rewrite W. reflexivity.
  - left. destruct (cc_app_write m buf c b) as (a & c' & D). eauto.
  - left. destruct (write_alert m (Alert AL_fatal AD_close_notify) (c_writer c)) as [x w] eqn:E.
    exists (Closed x), (Client (c_reader c) w (c_rng c) (c_buf c)), b. split; [exists []; reflexivity|]. intros t s L. exists s. split; [|exact L].
    unfold do_call, client_close, on_writer. cbn [csrc c_writer]. rewrite E. reflexivity.
Qed.
Lemma call_grows m o c : exists u, c_out (snd (do_call m o c)) = c_out c ++ u.
Proof.
  destruct o as [n|buf|]; unfold do_call.
  - exists []. rewrite app_nil_r. pose proof (read_writer m n c) as W. destruct (client_read m n c). unfold c_out. cbn [snd] in *. rewrite W. reflexivity.
  - assert (G : grows (client_write m buf)).
    { apply g_bind; [|intros; apply g_const]. apply good_or_alert, good_writer, wg_app. }
    destruct (G c) as (u & E). exists u. destruct (client_write m buf c). exact E.
  - destruct (g_writer _ (wg_alert m (Alert AL_fatal AD_close_notify)) c) as (u & E). exists u. unfold client_close.
    destruct (on_writer _ c). exact E.
Qed.
Lemma perform_grows m q : forall c, exists u, c_out (snd (perform m q c)) = c_out c ++ u.
Proof.
  induction q as [|o next IH]; intros c; [exists []; rewrite app_nil_r; reflexivity|]. cbn [perform].
  destruct (call_grows m o c) as (u & E). destruct (do_call m o c) as [a c1]. cbn [snd] in E.
  destruct (starved c1); [eauto|]. destruct (crashed a); [eauto|]. destruct (IH a c1) as (u2 & E2). exists (u ++ u2).
  rewrite E in E2. rewrite app_assoc, <- E2. destruct (perform m (next a) c1). reflexivity.
Qed.
Lemma starved_csrc c b t s : like b t s -> t <> [] -> starved (csrc c s) = false.
Proof. intros L N. pose proof (like_nonempty _ _ _ L N). unfold starved. cbn [csrc c_reader set_src r_src]. destruct s; congruence. Qed.
Lemma starved_nil c : r_src (c_reader c) = [] -> starved c = true.
Proof. intros E. unfold starved. rewrite E. reflexivity. Qed.
Lemma perform_causal m q : forall c b,
  (exists l c' b', forall t s, t <> [] -> like b t s -> exists s', perform m q (csrc c s) = (Some l, csrc c' s') /\ like b' t s') \/
  (exists c', (forall s, like b [RErr] s -> perform m q (csrc c s) = (None, c')) /\
     forall t s, t <> [] -> like b t s -> exists u, c_out (snd (perform m q (csrc c s))) = c_out c' ++ u).
Proof.
  induction q as [|o next IH]; intros c b.
  - left. exists [], c, b. intros t s _ L. exists s. auto.
  - destruct (call_causal m o c b) as [(a & c1 & b1 & _ & D)|(a & c1 & (N & W & O) & _)].
    + destruct (crashed a) eqn:Cr.
      { left. exists [a], c1, b1. intros t s T L. destruct (D t s L) as (s1 & E & L1). exists s1. split; [|exact L1].
        cbn [perform]. rewrite E, (starved_csrc _ _ _ _ L1 T), Cr. reflexivity. }
      destruct (IH a c1 b1) as [(l & c2 & b2 & H)|(c2 & H & H2)].
      * left. exists (a :: l), c2, b2. intros t s T L. destruct (D t s L) as (s1 & E & L1). destruct (H t s1 T L1) as (s2 & E2 & L2).
        exists s2. split; [|exact L2]. cbn [perform]. rewrite E, (starved_csrc _ _ _ _ L1 T), Cr, E2. reflexivity.
      * right. exists c2. split.
        -- intros s L. destruct (D _ s L) as (s1 & E & L1). cbn [perform]. rewrite E, (starved_csrc _ _ _ _ L1) by discriminate. rewrite Cr, (H s1 L1). reflexivity.
        -- intros t s T L. destruct (D t s L) as (s1 & E & L1). destruct (H2 t s1 T L1) as (u & U). exists u. rewrite <- U.
           cbn [perform]. rewrite E, (starved_csrc _ _ _ _ L1 T), Cr. destruct (perform m (next a) (csrc c1 s1)). reflexivity.
    + right. exists c1. split.
      * intros s L. cbn [perform]. rewrite (waited N W s L), (starved_nil _ N). reflexivity.
      * intros t s T L. destruct (O t s L) as (u & U). cbn [perform]. destruct (do_call m o (csrc c s)) as [a2 c2]. cbn [snd] in U.
        destruct (starved c2); [eauto|]. destruct (crashed a2); [eauto|]. destruct (perform_grows m (next a2) c2) as (u2 & U2). exists (u ++ u2).
        rewrite U in U2. rewrite app_assoc, <- U2. destruct (perform m (next a2) c2). reflexivity.
Qed.
Lemma conduct_causal m q p g b :
  (exists x c' b', x <> Waiting /\ forall t s, t <> [] -> like b t s -> exists s', conduct m q p g s = (x, csrc c' s') /\ like b' t s') \/
  (exists c', (forall s, like b [RErr] s -> conduct m q p g s = (Waiting, c')) /\
     forall t s, t <> [] -> like b t s -> exists u, c_out (snd (conduct m q p g s)) = c_out c' ++ u).
Proof.
  destruct (new_causal m p g b) as [(x & c1 & b1 & _ & D)|(c1 & N & W & O)].
  - assert (E : forall t s, like b t s -> exists s1, client_new m s p g = (x, csrc c1 s1) /\ like b1 t s1).
    { intros t s L. unfold client_new. rewrite init_src. exact (D t s L). }
    assert (F : (exists u, x = Ok u) \/ (forall u, x <> Ok u)) by (destruct x; eauto; right; discriminate).
    destruct F as [([] & ->)|F].
    + destruct (perform_causal m q c1 b1) as [(l & c2 & b2 & H)|(c2 & H & H2)].
      * left. exists (Ended l), c2, b2. split; [discriminate|]. intros t s T L. destruct (E t s L) as (s1 & E1 & L1). destruct (H t s1 T L1) as (s2 & E2 & L2).
        exists s2. split; [|exact L2]. unfold conduct. rewrite E1, (starved_csrc _ _ _ _ L1 T), E2. reflexivity.
      * right. exists c2. split.
        -- intros s L. destruct (E _ s L) as (s1 & E1 & L1). unfold conduct. rewrite E1, (starved_csrc _ _ _ _ L1) by discriminate. rewrite (H s1 L1). reflexivity.
        -- intros t s T L. destruct (E t s L) as (s1 & E1 & L1). destruct (H2 t s1 T L1) as (u & U). exists u. rewrite <- U.
           unfold conduct. rewrite E1, (starved_csrc _ _ _ _ L1 T). destruct (perform m q (csrc c1 s1)). reflexivity.
    + left. exists (Failed x), c1, b1. split; [discriminate|]. intros t s T L. destruct (E t s L) as (s1 & E1 & L1). exists s1. split; [|exact L1].
      unfold conduct. rewrite E1, (starved_csrc _ _ _ _ L1 T). destruct x as [[]| | |]; try reflexivity. destruct (F tt eq_refl).
  - right. exists c1. split.
    + intros s L. unfold conduct, client_new. rewrite init_src, (waited N W s L), (starved_nil _ N). reflexivity.
    + intros t s T L. destruct (O t s L) as (u & U). unfold conduct, client_new. rewrite init_src. destruct (or_alert m (client_handshake m) _) as [x c2]. cbn [snd] in U.
      destruct (starved c2); [eauto|]. destruct x as [[]| | |]; eauto. destruct (perform_grows m q c2) as (u2 & U2). exists (u ++ u2).
      rewrite U in U2. rewrite app_assoc, <- U2. destruct (perform m q c2). reflexivity.
Qed.

(** ** All of this in terms of the bytes that have arrived *)
Lemma like_feed r : like r [RErr] (feed r).
Proof.
  destruct r as [|b r]; [apply like_nil|]. exists [RData (b :: r)]. split; [repeat constructor; eauto|]. split; [cbn; rewrite app_nil_r; reflexivity|reflexivity].
Qed.
Lemma conduct_splitting m q p g r s : arrived r s ->
  fst (conduct m q p g s) = state_after m q p g r /\ c_out (snd (conduct m q p g s)) = sent_after m q p g r.
Proof.
  intros A. unfold state_after, sent_after. pose proof (like_feed r) as F.
  destruct (conduct_causal m q p g r) as [(x & c' & b' & _ & H)|(c' & H & _)].
  - destruct (H [RErr] s ltac:(discriminate) A) as (s1 & E1 & _). destruct (H [RErr] _ ltac:(discriminate) F) as (s2 & E2 & _). rewrite E1, E2. auto.
  - rewrite (H s A), (H _ F). auto.
Qed.
(** bytes that have arrived, and further ones *)
Lemma two_parts r x : x <> [] -> exists s, like r [RData x; RErr] s /\ arrived (r ++ x) s.
Proof.
  intros N. destruct x as [|y x]; [congruence|]. destruct (like_canon r [RData (y :: x); RErr]) as (s & a & C & E & ->).
  exists (a ++ [RData (y :: x); RErr]). split; [exists a; auto|]. exists (a ++ [RData (y :: x)]). split.
  - apply Forall_app. split; [exact C|]. repeat constructor. eauto.
  - split; [|rewrite <- app_assoc; reflexivity]. subst r. clear - C. induction C as [|e a (z & zs & ->) C IH]; [cbn; rewrite app_nil_r; reflexivity|].
    cbn [app stream]. f_equal. rewrite IH, app_assoc. reflexivity.
Qed.
Lemma sent_grows m q p g r x : exists u, sent_after m q p g (r ++ x) = sent_after m q p g r ++ u.
Proof.
  assert (D : x = [] \/ x <> []) by (destruct x; auto; right; discriminate). destruct D as [-> | N].
  { rewrite !app_nil_r. exists []. rewrite app_nil_r. reflexivity. }
  destruct (two_parts r x N) as (s & L & A). destruct (conduct_splitting m q p g _ _ A) as (_ & <-).
  unfold sent_after. pose proof (like_feed r) as F.
  destruct (conduct_causal m q p g r) as [(y & c' & b' & _ & H)|(c' & H & H2)].
  - destruct (H [RData x; RErr] s ltac:(discriminate) L) as (s1 & E1 & _). destruct (H [RErr] _ ltac:(discriminate) F) as (s2 & E2 & _). rewrite E1, E2.
    exists []. rewrite app_nil_r. reflexivity.
  - rewrite (H _ F). exact (H2 [RData x; RErr] s ltac:(discriminate) L).
Qed.
Lemma state_final m q p g r x : state_after m q p g r <> Waiting ->
  state_after m q p g (r ++ x) = state_after m q p g r /\ sent_after m q p g (r ++ x) = sent_after m q p g r.
Proof.
  intros NW. assert (D : x = [] \/ x <> []) by (destruct x; auto; right; discriminate). destruct D as [-> | N].
  { rewrite !app_nil_r. auto. }
  destruct (two_parts r x N) as (s & L & A). destruct (conduct_splitting m q p g _ _ A) as (<- & <-).
  unfold state_after, sent_after in *. pose proof (like_feed r) as F.
  destruct (conduct_causal m q p g r) as [(y & c' & b' & _ & H)|(c' & H & _)].
  - destruct (H [RData x; RErr] s ltac:(discriminate) L) as (s1 & E1 & _). destruct (H [RErr] _ ltac:(discriminate) F) as (s2 & E2 & _). rewrite E1, E2. auto.
  - exfalso. apply NW. rewrite (H _ F). reflexivity.
Qed.

(** ** Where a conversation ends *)
Lemma perform_unique m q c b s1 s2 : like b [RErr] s1 -> like b [RErr] s2 ->
  fst (perform m q (csrc c s1)) = fst (perform m q (csrc c s2)) /\ c_out (snd (perform m q (csrc c s1))) = c_out (snd (perform m q (csrc c s2))).
Proof.
  intros L1 L2. destruct (perform_causal m q c b) as [(l & c' & b' & H)|(c' & H & _)].
  - destruct (H [RErr] s1 ltac:(discriminate) L1) as (t1 & E1 & _). destruct (H [RErr] s2 ltac:(discriminate) L2) as (t2 & E2 & _). rewrite E1, E2. auto.
  - rewrite (H _ L1), (H _ L2). auto.
Qed.
(** a source with the same bytes in two parts *)
Lemma split_like b x : exists t s, t <> [] /\ like b t s /\ like (b ++ x) [RErr] s /\ forall b' s', like b' t s' -> like (b' ++ x) [RErr] s'.
Proof.
  assert (K : forall b, like (b ++ []) [RErr] = like b [RErr]) by (intros; rewrite app_nil_r; reflexivity).
  destruct x as [|y x].
  - exists [RErr], (feed b). rewrite K. split; [discriminate|]. split; [apply like_feed|]. split; [apply like_feed|]. intros b' s'. rewrite K. auto.
  - assert (G : forall b s, like b [RData (y :: x); RErr] s -> like (b ++ y :: x) [RErr] s).
    { intros b0 s (a & C & E & ->). exists (a ++ [RData (y :: x)]). split.
      - apply Forall_app. split; [exact C|]. repeat constructor. eauto.
      - split; [|rewrite <- app_assoc; reflexivity]. subst b0. clear - C. induction C as [|e a (z & zs & ->) C IH]; [cbn; rewrite app_nil_r; reflexivity|].
        cbn [app stream]. f_equal. rewrite IH, app_assoc. reflexivity. }
    destruct (like_canon b [RData (y :: x); RErr]) as (s & L). exists [RData (y :: x); RErr], s. split; [discriminate|]. auto.
Qed.
Section Settle.
  Variable m : mode.
  Variable q0 : application.
  Variable p : list wevent.
  Variable g : rng.
  Variable srv : bytes -> bytes.
  Hypothesis causal : causal_server srv.
  Notation sent := (sent_after m q0 p g).
  Notation conv := (conversation srv sent).

  Lemma conv_prefix r : conv r -> exists t, srv (sent r) = r ++ t.
  Proof using causal.
    destruct 1 as [|r x t H E]; [eexists; reflexivity|]. destruct (sent_grows m q0 p g r x) as (u & ->).
    destruct (causal (sent r) u) as (v & ->). rewrite E. exists (t ++ v). rewrite <- !app_assoc. reflexivity.
  Qed.
  Lemma conv_below S r : settled srv sent S -> conv r -> exists x, S = r ++ x.
  Proof using causal.
    intros F. induction 1 as [|r x t H (y & IH) E]; [exists S; reflexivity|].
    pose proof F as F'. unfold settled in F'. destruct (sent_grows m q0 p g r y) as (u & U). rewrite <- IH in U.
    destruct (causal (sent r) u) as (v & V). rewrite <- U, F', E in V. exists (t ++ v). rewrite V, <- !app_assoc. reflexivity.
  Qed.
  Lemma stays_settles R : conv R -> (forall x, sent (R ++ x) = sent R) -> exists S, conv S /\ settled srv sent S.
  Proof using causal.
    intros C K. destruct (conv_prefix R C) as (t & E). exists (R ++ t). split; [apply (Cv_more _ _ R t [] C); rewrite app_nil_r; exact E|].
    unfold settled. rewrite K. exact E.
  Qed.
  Definition ctx (q : application) (c : client) (b R : bytes) : Prop :=
    forall x s, like (b ++ x) [RErr] s -> sent (R ++ x) = c_out (snd (perform m q (csrc c s))).
  Lemma ctx_const q c b R out : ctx q c b R -> (forall t s, t <> [] -> like b t s -> c_out (snd (perform m q (csrc c s))) = out) -> forall x, sent (R ++ x) = sent R.
  Proof using.
    intros H K. assert (A : forall x, sent (R ++ x) = out).
    { intros x. destruct (split_like b x) as (t & s & T & L & L2 & _). rewrite (H x s L2). eapply K; eassumption. }
    intros x. rewrite (A x). rewrite <- (A []), app_nil_r. reflexivity.
  Qed.
  Lemma ctx_next o next c b R a c' b' : ctx (Do o next) c b R -> c_done (do_call m o) c b a c' b' -> crashed a = false -> ctx (next a) c' b' R.
  Proof using.
    intros H (_ & D) Cr x s L. destruct (split_like b x) as (t & s0 & T & L0 & L2 & G). rewrite (H x s0 L2). cbn [perform].
    destruct (D t s0 L0) as (s1 & E & L1). rewrite E, (starved_csrc _ _ _ _ L1 T), Cr.
    destruct (perform_unique m (next a) c' (b' ++ x) s1 s (G _ _ L1) L) as (_ & U). rewrite <- U. destruct (perform m (next a) (csrc c' s1)). reflexivity.
  Qed.
  Lemma ctx_more q c b R x : ctx q c b R -> ctx q c (b ++ x) (R ++ x).
  Proof using. intros H y s L. rewrite <- app_assoc. apply H. rewrite app_assoc. exact L. Qed.
  Lemma settle_app q : forall c b R, ctx q c b R -> conv R -> exists S, conv S /\ settled srv sent S.
  Proof using causal.
    induction q as [|o next IH]; intros c b R H C.
    - apply (stays_settles R C). apply (ctx_const _ _ _ _ (c_out c) H). reflexivity.
    - assert (ST : forall b R, ctx (Do o next) c b R -> conv R -> (exists a c' b', c_done (do_call m o) c b a c' b') -> exists S, conv S /\ settled srv sent S).
      { intros b0 R0 H0 C0 (a & c' & b' & D). destruct (crashed a) eqn:Cr.
        - apply (stays_settles R0 C0). apply (ctx_const _ _ _ _ (c_out c') H0). intros t s T L. destruct D as (_ & D). destruct (D t s L) as (s1 & E & L1).
          cbn [perform]. rewrite E, (starved_csrc _ _ _ _ L1 T), Cr. reflexivity.
        - eapply IH; [eapply ctx_next; eassumption|exact C0]. }
      destruct (call_causal m o c b) as [D|(a & c1 & (N & W & _) & O)]; [eapply ST; eassumption|].
      destruct (conv_prefix R C) as (t & E).
      assert (C1 : conv (R ++ t)) by (apply (Cv_more _ _ R t [] C); rewrite app_nil_r; exact E).
      pose proof (ctx_more _ _ _ _ t H) as H1.
      destruct (call_causal m o c (b ++ t)) as [D|(a2 & c2 & (N2 & W2 & _) & O2)]; [eapply ST; eassumption|].
      exists (R ++ t). split; [exact C1|]. unfold settled.
      assert (A1 : sent R = c_out c).
      { specialize (H [] (feed (b ++ [])) (like_feed _)). rewrite app_nil_r in H. rewrite H. cbn [perform].
        rewrite (waited N W (feed (b ++ []))); [|rewrite app_nil_r; apply like_feed]. rewrite (starved_nil _ N). exact O. }
      assert (A2 : sent (R ++ t) = c_out c).
      { rewrite (H t (feed (b ++ t)) (like_feed _)). cbn [perform].
        rewrite (waited N2 W2 (feed (b ++ t)) (like_feed _)). rewrite (starved_nil _ N2). exact O2. }
      rewrite A2, <- A1. exact E.
  Qed.
  (** *** The handshake *)
  Variable B : nat.
  Hypothesis bound : forall s c, client_new m s p g = (Err IoFailure, c) -> (length (c_out c) <= B)%nat.
  Lemma settle_new : forall n R, conv R -> (B - length (sent R) < n)%nat -> exists S, conv S /\ settled srv sent S.
  Proof using causal bound.
    induction n as [|n IH]; intros R C Ln; [lia|].
    assert (ST : forall R, conv R -> (exists x c' b', c_done (or_alert m (client_handshake m)) (client_init [] p g) R x c' b') -> exists S, conv S /\ settled srv sent S).
    { intros R0 C0 (x & c1 & b1 & _ & D).
      assert (E : forall t s, like R0 t s -> exists s1, client_new m s p g = (x, csrc c1 s1) /\ like b1 t s1).
      { intros t s L. unfold client_new. rewrite init_src. exact (D t s L). }
      assert (F : (exists u, x = Ok u) \/ (forall u, x <> Ok u)) by (destruct x; eauto; right; discriminate).
      destruct F as [([] & ->)|F].
      - apply (settle_app q0 c1 b1 R0); [|exact C0]. intros y s L. destruct (split_like R0 y) as (t & s0 & T & L0 & L2 & G).
        destruct (conduct_splitting m q0 p g _ _ L2) as (_ & <-). destruct (E t s0 L0) as (s1 & E1 & L1).
        unfold conduct. rewrite E1, (starved_csrc _ _ _ _ L1 T).
        destruct (perform_unique m q0 c1 (b1 ++ y) s1 s (G _ _ L1) L) as (_ & U). rewrite <- U. destruct (perform m q0 (csrc c1 s1)). reflexivity.
      - apply (stays_settles R0 C0). intros y. assert (A : forall y, sent (R0 ++ y) = c_out c1).
        { intros z. destruct (split_like R0 z) as (t & s0 & T & L0 & L2 & G). destruct (conduct_splitting m q0 p g _ _ L2) as (_ & <-).
          destruct (E t s0 L0) as (s1 & E1 & L1). unfold conduct. rewrite E1, (starved_csrc _ _ _ _ L1 T). destruct x as [[]| | |]; try reflexivity. destruct (F tt eq_refl). }
        rewrite A. rewrite <- (A []), app_nil_r. reflexivity. }
    assert (WT : forall R, (exists c', c_wait (or_alert m (client_handshake m)) (client_init [] p g) R (Err IoFailure) c') -> (length (sent R) <= B)%nat).
    { intros R0 (c' & N & W & _). assert (E : client_new m (feed R0) p g = (Err IoFailure, c')) by (unfold client_new; rewrite init_src; apply (waited N W), like_feed).
      unfold sent_after, conduct. rewrite E, (starved_nil _ N). eapply bound. exact E. }
    destruct (new_causal m p g R) as [D|W]; [apply (ST R C D)|].
    destruct (conv_prefix R C) as (t & E).
    assert (C1 : conv (R ++ t)) by (apply (Cv_more _ _ R t [] C); rewrite app_nil_r; exact E).
    destruct (new_causal m p g (R ++ t)) as [D|W1]; [apply (ST _ C1 D)|].
    destruct (sent_grows m q0 p g R t) as (u & U). destruct u as [|z u].
    - rewrite app_nil_r in U. exists (R ++ t). split; [exact C1|]. unfold settled. rewrite U. exact E.
    - apply (IH (R ++ t) C1). apply WT in W1. rewrite U, app_length in *. cbn [length] in *. lia.
  Qed.
End Settle.
