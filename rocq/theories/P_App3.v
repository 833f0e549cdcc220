(** Proofs about src/client.rs: splitting of the transport, end of the stream, whole connections. *)
From Verif Require Import Spec_Client P_Util P_Codec P_RecordW P_RecordR P_Record P_Record2 P_Aead P_Ecdhe P_Halt P_Client P_Client2 P_App P_App2.
From Coq Require Import ZifyBool ZifyNat ZifyN.
Local Open Scope Z_scope.
#[local] Opaque aead_seal aead_decrypt aead_encrypt compute_keys SHA256 HMAC PRF.

(** ** C08 for the client *)
Definition csplit {A} (act : M client A) : Prop := forall c1 c2, same_client c1 c2 ->
  fst (act c1) = fst (act c2) /\ same_client (snd (act c1)) (snd (act c2)).
Lemma csplit_ret {A} (a : A) : csplit (mret a).
Proof. intros c1 c2 H. auto. Qed.
Lemma csplit_fail {A} (a : res A) : csplit (mfail a).
Proof. intros c1 c2 H. auto. Qed.
Lemma csplit_lift {A} (a : res A) : csplit (mlift a).
Proof. intros c1 c2 H. auto. Qed.
Lemma csplit_bind {A B} (x : M client A) (f : A -> M client B) : csplit x -> (forall a, csplit (f a)) -> csplit (mbind x f).
Proof.
  intros Hx Hf c1 c2 H. unfold mbind. destruct (Hx c1 c2 H) as [E S].
  destruct (x c1) as [y1 s1], (x c2) as [y2 s2]. cbn in *. subst y2. destruct y1; auto. apply Hf. exact S.
Qed.
Lemma csplit_reader {A} (a : M reader A) : split_independent a -> csplit (on_reader a).
Proof.
  intros Ha c1 c2 (R & W & G & B). unfold on_reader. destruct (Ha _ _ R) as [E S].
  destruct (a (c_reader c1)) as [y1 r1], (a (c_reader c2)) as [y2 r2]. cbn in *. subst y2. split; [reflexivity|]. repeat split; auto; apply S.
Qed.
Lemma csplit_writer {A} (a : M writer A) : csplit (on_writer a).
Proof.
  intros c1 c2 (R & W & G & B). unfold on_writer. rewrite W. destruct (a (c_writer c2)) as [y w]. cbn. split; [reflexivity|]. repeat split; auto; apply R.
Qed.
Lemma csplit_rng {A} (a : M rng A) : csplit (on_rng a).
Proof.
  intros c1 c2 (R & W & G & B). unfold on_rng. rewrite G. destruct (a (c_rng c2)) as [y w]. cbn. split; [reflexivity|]. repeat split; auto; apply R.
Qed.
Lemma split_set_iv iv : split_independent (r_set_iv iv).
Proof. intros r1 r2 H. pose proof H as (H1 & H2 & H3 & H4 & H5). unfold r_set_iv. rewrite H4. destruct (r_iv r2); (split; [reflexivity|]); [exact H|]. repeat split; cbn; auto; apply H5. Qed.
Lemma split_set_dec d : split_independent (r_set_decryptor d).
Proof. intros r1 r2 H. pose proof H as (H1 & H2 & H3 & H4 & H5). unfold r_set_decryptor. rewrite H1. destruct (r_dec r2); (split; [reflexivity|]); [exact H|]. repeat split; cbn; auto; apply H5. Qed.
Lemma csplit_expect {A} m (pick : handshake -> option A) : csplit (expect m pick).
Proof. apply csplit_bind; [apply csplit_reader, split_read_handshake|]. intros h. destruct (pick h); [apply csplit_ret|apply csplit_fail]. Qed.
Lemma csplit_handshake m : csplit (client_handshake m).
Proof.
  unfold client_handshake.
  repeat first [ apply csplit_bind; [first [apply csplit_lift|apply csplit_writer|apply csplit_rng|apply csplit_expect
                                           |apply csplit_reader; first [apply split_set_iv|apply split_set_dec|apply split_read_ccs]]|]
               | lazymatch goal with |- forall _ : (_ * _)%type, _ => intros [? ?] | |- forall _, _ => intros ? end; cbv beta iota ].
  match goal with |- csplit (if ?b then _ else _) => destruct b end; [apply csplit_ret|apply csplit_fail].
Qed.
Lemma send_alert_eq m k c : k <> IoFailure -> send_tls_alert m k c =
  match on_writer (write_alert m (Alert AL_fatal (alert_from_err k))) c with
  | (Ok _, c') => (Ok k, c') | (Err k', c') => (Ok k', c') | (Panic, c') => (Panic, c') | (Diverge, c') => (Diverge, c') end.
Proof. intros D. destruct k; reflexivity || congruence. Qed.
Lemma csplit_or_alert {A} m (a : M client A) : csplit a -> csplit (or_alert m a).
Proof.
  intros Ha c1 c2 H. unfold or_alert. destruct (Ha c1 c2 H) as [E S]. destruct (a c1) as [y1 s1], (a c2) as [y2 s2]. cbn in E, S. subst y2.
  destruct y1 as [x|k| |]; auto.
  assert (T : fst (send_tls_alert m k s1) = fst (send_tls_alert m k s2) /\ same_client (snd (send_tls_alert m k s1)) (snd (send_tls_alert m k s2))).
  { assert (D : k = IoFailure \/ k <> IoFailure) by (destruct k; auto; right; discriminate).
    destruct D as [-> | D]; [split; [reflexivity|exact S]|]. rewrite !send_alert_eq by exact D.
    pose proof (csplit_writer (write_alert m (Alert AL_fatal (alert_from_err k))) s1 s2 S) as [E2 S2].
    destruct (on_writer (write_alert m (Alert AL_fatal (alert_from_err k))) s1) as [y1 t1], (on_writer (write_alert m (Alert AL_fatal (alert_from_err k))) s2) as [y2 t2].
    cbn in E2, S2. subst y2. destruct y1; auto. }
  destruct (send_tls_alert m k s1) as [y1 t1], (send_tls_alert m k s2) as [y2 t2]. cbn in T. destruct T as [-> T]. destruct y2; auto.
Qed.
Lemma new_splitting m s1 s2 p g : same_stream s1 s2 ->
  fst (client_new m s1 p g) = fst (client_new m s2 p g) /\ same_client (snd (client_new m s1 p g)) (snd (client_new m s2 p g)).
Proof. intros H. apply csplit_or_alert; [apply csplit_handshake|]. split; [|auto]. repeat split; auto; apply H. Qed.
Lemma rd_splitting m len done c1 x c1' : rd m len done c1 x c1' -> forall c2, same_client c1 c2 ->
  exists c2', rd m len done c2 x c2' /\ same_client c1' c2'.
Proof.
  induction 1 as [done c L|done c x c' L B R IH|done c d r' x c' L B E R IH|done c e r' L B E|done c r' L B E|done c r' L B E]; intros c2 S;
    pose proof S as (Sr & Sw & Sg & Sb).
  - exists c2. split; [apply Rd_full; exact L|exact S].
  - destruct (IH (with_buf c2 (c_reader c2) (skipn (len - length done) (c_buf c2)))) as (c2' & R2 & S2).
    { unfold with_buf. rewrite Sb, Sw, Sg. repeat split; auto; apply Sr. }
    rewrite Sb in R2. exists c2'. split; [|exact S2]. apply Rd_copy; [exact L|congruence|]. exact R2.
  - destruct (split_read_application_data m _ _ Sr) as [E1 E2]. rewrite E in E1, E2. cbn [fst snd] in *.
    destruct (read_application_data m (c_reader c2)) as [y r2] eqn:Ey. cbn [fst snd] in *. subst y.
    destruct (IH (with_buf c2 r2 (skipn (len - length done) d))) as (c2' & R2 & S2).
    { unfold with_buf. rewrite Sw, Sg. repeat split; auto; apply E2. }
    exists c2'. split; [|exact S2]. eapply Rd_data; [exact L|congruence|exact Ey|exact R2].
  - destruct (split_read_application_data m _ _ Sr) as [E1 E2]. rewrite E in E1, E2. cbn [fst snd] in *.
    destruct (read_application_data m (c_reader c2)) as [y r2] eqn:Ey. cbn [fst snd] in *. subst y.
    eexists. split; [eapply Rd_err; [exact L|congruence|exact Ey]|]. unfold with_buf. rewrite Sw, Sg. repeat split; auto; apply E2.
  - destruct (split_read_application_data m _ _ Sr) as [E1 E2]. rewrite E in E1, E2. cbn [fst snd] in *.
    destruct (read_application_data m (c_reader c2)) as [y r2] eqn:Ey. cbn [fst snd] in *. subst y.
    eexists. split; [eapply Rd_panic; [exact L|congruence|exact Ey]|]. unfold with_buf. rewrite Sw, Sg. repeat split; auto; apply E2.
  - destruct (split_read_application_data m _ _ Sr) as [E1 E2]. rewrite E in E1, E2. cbn [fst snd] in *.
    destruct (read_application_data m (c_reader c2)) as [y r2] eqn:Ey. cbn [fst snd] in *. subst y.
    eexists. split; [eapply Rd_diverge; [exact L|congruence|exact Ey]|]. unfold with_buf. rewrite Sw, Sg. repeat split; auto; apply E2.
Qed.
Lemma csplit_read m len : csplit (client_read m len).
Proof.
  intros c1 c2 S. destruct (client_read m len c1) as [x c1'] eqn:E. apply read_rd in E.
  destruct (rd_splitting _ _ _ _ _ _ E _ S) as (c2' & R & S'). apply rd_read in R. rewrite R. auto.
Qed.
Lemma reads_splitting m sizes : forall c1 c2, same_client c1 c2 ->
  fst (client_reads m sizes c1) = fst (client_reads m sizes c2) /\ same_client (snd (client_reads m sizes c1)) (snd (client_reads m sizes c2)).
Proof.
  induction sizes as [|n sizes IH]; intros c1 c2 S; [auto|]. cbn [client_reads].
  destruct (csplit_read m n c1 c2 S) as [E S']. destruct (client_read m n c1) as [y1 s1], (client_read m n c2) as [y2 s2]. cbn [fst snd] in E, S'. subst y2.
  specialize (IH s1 s2 S'). destruct (client_reads m sizes s1), (client_reads m sizes s2). cbn [fst snd] in IH. destruct IH as [-> IH].
  destruct y1; auto.
Qed.

(** ** The end of the stream *)
Lemma read_app_eof m r d : r_dec r = Some d -> stream (r_src r) = [] -> no_pending r -> exists r', read_application_data m r = (Err IoFailure, r').
Proof.
  intros D S NP. unfold read_application_data, mbind. rewrite D, read_message_eq, NP.
  assert (Er : set_buf r (r_buf r) = r) by (destruct r; reflexivity). rewrite Er, pull_eq. unfold mbind, read_record, mbind, r_read.
  pose proof (fill_err (r_src r) 1) as F. rewrite S in F. specialize (F ltac:(cbn; lia)).
  destruct (fill_exact (r_src r) 1) as [y s']. cbn [fst] in F. subst y. eexists; reflexivity.
Qed.
Lemma rd_drains m key iv len done c x c' : rd m len done c x c' -> forall k fs, serving m c key iv k fs [] ->
  (length (c_buf c ++ concat fs) < len - length done)%nat -> x = Ok (done ++ c_buf c ++ concat fs) /\ c_buf c' = [].
Proof.
  induction 1 as [done c L|done c x c' L B R IH|done c d r' x c' L B E R IH|done c e r' L B E|done c r' L B E|done c r' L B E]; intros k fs Hs Lf.
  - lia.
  - destruct (IH k fs Hs) as [-> Bc].
    + cbn [with_buf c_buf]. rewrite !app_length, firstn_length, skipn_length in *. lia.
    + cbn [with_buf c_buf] in *. split; [|exact Bc]. rewrite <- app_assoc, (app_assoc (firstn _ _)), firstn_skipn. reflexivity.
  - destruct fs as [|f fs]; destruct Hs as (Hk & S & F & K & NP).
    + destruct (read_app_eof m _ _ (proj1 Hk) S NP) as (r2 & E2). congruence.
    + inversion F; subst. cbn [sealed_stream] in S. rewrite <- app_assoc in S. rewrite zlen_cons in K. pose proof (zlen_nonneg fs).
      destruct (read_app_data m _ key iv k f _ Hk S ltac:(assumption) ltac:(lia) NP) as (r1 & E1 & Hk1 & S1 & NP1).
      rewrite E1 in E. apply pair_equal_spec in E as [E <-]. apply Ok_inj in E. subst d.
      destruct (IH (k + 1) fs) as [-> Bc].
      * split; [exact Hk1|]. split; [exact S1|]. split; [assumption|]. split; [lia|exact NP1].
      * rewrite B in Lf. cbn [with_buf c_buf concat app] in *. rewrite !app_length, firstn_length, skipn_length in *. lia.
      * split; [|exact Bc]. rewrite B. cbn [with_buf c_buf concat app]. rewrite <- app_assoc, (app_assoc (firstn _ _)), firstn_skipn. reflexivity.
  - destruct fs as [|f fs]; destruct Hs as (Hk & S & F & K & NP).
    + rewrite B. cbn [concat app with_buf c_buf]. rewrite app_nil_r. auto.
    + exfalso. inversion F; subst. cbn [sealed_stream] in S. rewrite <- app_assoc in S. rewrite zlen_cons in K. pose proof (zlen_nonneg fs).
      destruct (read_app_data m _ key iv k f _ Hk S ltac:(assumption) ltac:(lia) NP) as (r1 & E1 & _). congruence.
  - exfalso. destruct fs as [|f fs]; destruct Hs as (Hk & S & F & K & NP).
    + destruct (read_app_eof m _ _ (proj1 Hk) S NP) as (r2 & E2). congruence.
    + inversion F; subst. cbn [sealed_stream] in S. rewrite <- app_assoc in S. rewrite zlen_cons in K. pose proof (zlen_nonneg fs).
      destruct (read_app_data m _ key iv k f _ Hk S ltac:(assumption) ltac:(lia) NP) as (r1 & E1 & _). congruence.
  - exfalso. destruct fs as [|f fs]; destruct Hs as (Hk & S & F & K & NP).
    + destruct (read_app_eof m _ _ (proj1 Hk) S NP) as (r2 & E2). congruence.
    + inversion F; subst. cbn [sealed_stream] in S. rewrite <- app_assoc in S. rewrite zlen_cons in K. pose proof (zlen_nonneg fs).
      destruct (read_app_data m _ key iv k f _ Hk S ltac:(assumption) ltac:(lia) NP) as (r1 & E1 & _). congruence.
Qed.

(** ** A whole connection against an attacker *)
Lemma absorbs_suffix m r recs r' : absorbs m r recs r' -> exists p, all_bytes (r_src r) = p ++ all_bytes (r_src r').
Proof.
  induction 1 as [r|r r1 recs r2 (_ & _ & _ & p & P) H (q & Q)|r rec r1 recs r2 E H (q & Q)].
  - exists []. reflexivity.
  - exists (p ++ q). rewrite P, Q, app_assoc. reflexivity.
  - apply read_record_inv in E as (t & maj & min & frag & f & c & _ & _ & _ & A & _). exists (wire t maj min frag ++ q). rewrite A, Q, app_assoc. reflexivity.
Qed.
Lemma read_handshake_absorbs m r x r' : read_handshake m r = (Ok x, r') -> exists recs, absorbs m r recs r' /\ app_bytes recs = [].
Proof.
  unfold read_handshake, mbind. destruct (read_message_absorbs m r) as (recs & A & D). destruct (read_message m r) as [y r1]. cbn [fst snd] in *.
  intros H. exists recs. destruct y as [[h| |a|d]| | |]; try discriminate H. apply pair_equal_spec in H as [_ <-]. auto.
Qed.
Lemma read_ccs_absorbs m r x r' : read_change_cipher_spec m r = (Ok x, r') -> exists recs, absorbs m r recs r' /\ app_bytes recs = [].
Proof.
  unfold read_change_cipher_spec, mbind. destruct (read_message_absorbs m r) as (recs & A & D). destruct (read_message m r) as [y r1]. cbn [fst snd] in *.
  intros H. exists recs. destruct y as [[h| |a|d]| | |]; try discriminate H. apply pair_equal_spec in H as [_ <-]. auto.
Qed.
Theorem connection_genuine m s p g c : client_new m s p g = (Ok tt, c) -> exists ss, reached m s g (Complete ss) /\
  forall peer sizes, sealed_by (new_encryptor m (k_server (s_keys ss))) (iv_server (s_keys ss)) peer -> zlen peer < 2 ^ 64 ->
  forged (new_decryptor m (k_server (s_keys ss))) (iv_server (s_keys ss)) peer s \/
  exists rest, app_bytes (map fst peer) = concat (oks (fst (client_reads m sizes c))) ++ rest.
Proof.
  intros E. apply client_new_cases in E. inversion E as [ss c0 RC An Rd Bf| | | | |]; subst. exists ss. split; [exact RC|].
  intros peer sizes SB LP. destruct An as (r4 & (r1 & r2 & r3 & F1 & F2 & F3 & F4) & r5 & CC & FN).
  destruct (key_block_lengths (s_master ss) (s_cr ss) (sh_random (s_sh ss))) as (_ & K2 & _ & K4). fold (s_keys ss) in K2, K4.
  destruct (read_ccs_keys _ _ _ _ CC) as [_ V]. cbn [ived_reader r_iv] in V.
  destruct (reads_conserve m sizes c) as (n & lost & _ & Eq & _). cbv zeta in Eq. rewrite Bf in Eq. cbn [app] in Eq.
  destruct (read_handshake_absorbs _ _ _ _ FN) as (recs & A1 & D1).
  destruct (reads_absorbs_app m n (c_reader c)) as (recs2 & r' & A2 & D2).
  pose proof (absorbs_app _ _ _ _ _ _ A1 A2) as A3.
  destruct (absorbs_genuine m _ _ _ peer _ _ _ (aead_opens m _ K2) K4 SB LP A3 0%nat eq_refl V eq_refl) as [Fg|((rest & R) & _)]; [lia| |].
  - left. cbn [decrypting r_src] in Fg.
    destruct (read_handshake_absorbs _ _ _ _ F1) as (q1 & B1 & _), (read_handshake_absorbs _ _ _ _ F2) as (q2 & B2 & _),
      (read_handshake_absorbs _ _ _ _ F3) as (q3 & B3 & _), (read_handshake_absorbs _ _ _ _ F4) as (q4 & B4 & _), (read_ccs_absorbs _ _ _ _ CC) as (q5 & B5 & _).
    apply absorbs_suffix in B1 as (p1 & P1). apply absorbs_suffix in B2 as (p2 & P2). apply absorbs_suffix in B3 as (p3 & P3).
    apply absorbs_suffix in B4 as (p4 & P4). apply absorbs_suffix in B5 as (p5 & P5). cbn [ived_reader reader_new r_src] in *.
    eapply forged_suffix; [exact P1|]. eapply forged_suffix; [exact P2|]. eapply forged_suffix; [exact P3|]. eapply forged_suffix; [exact P4|].
    eapply forged_suffix; [exact P5|]. exact Fg.
  - right. cbn [skipn] in R. rewrite R, !app_bytes_app, D1, D2, Eq. cbn [app]. rewrite <- !app_assoc. eexists. reflexivity.
Qed.
