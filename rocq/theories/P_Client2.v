(** Proofs about src/client.rs: all outcomes of [TlsClient::new]. *)
From Verif Require Import Spec_Client P_Util P_Codec P_RecordW P_RecordR P_Record P_Record2 P_Sha2 P_Prf P_Aead P_Ecdhe P_Client.
From Coq Require Import ZifyBool ZifyNat ZifyN.
Import String.StringSyntax.
Local Open Scope string_scope.
Local Open Scope list_scope.
Local Open Scope Z_scope.
#[local] Opaque SHA256 HMAC aead_seal compute_keys PRF.

(** the writer once [st] has been reached *)
Definition ready (m : mode) (st : stage) (p : list wevent) (w : writer) : Prop :=
  w_out w = stage_out st /\ (healthy (writer_new p) -> healthy w) /\
  match st with
  | Nothing => w_enc w = None /\ w_iv w = None /\ w_count w = 0
  | Hello _ => w_enc w = None /\ w_iv w = None /\ w_count w = 1
  | Complete s => w_enc w = Some (new_encryptor m (k_client (s_keys s))) /\ w_iv w = Some (iv_client (s_keys s)) /\ w_count w = 1
  end.
(** a write failed on the way to [st] *)

Lemma session_good m s g ss : reached m s g (Complete ss) -> good_session ss.
Proof.
  intros (Lg & Ec & (r' & r1 & r2 & r3 & F1 & F2 & F3 & F4) & V & S & C & (g' & K)).
  apply keys_lengths in K as (Lp & Lk & _).
  assert (Lc : length (s_cr ss) = 32%nat) by (rewrite Ec, firstn_length; lia).
  pose proof (read_handshake_wf _ _ _ _ F1) as [W1 W1']. pose proof (read_handshake_wf _ _ _ _ F2) as W2.
  pose proof (read_handshake_wf _ _ _ _ F3) as W3. pose proof (read_handshake_wf _ _ _ _ F4) as W4. cbv beta iota in W2, W3, W4.
  assert (S' : wf_suite (sh_suite (s_sh ss))) by (rewrite S; discriminate).
  specialize (W1' S'). pose proof W1' as [W1b _]. cbn [wf_hs_body] in W1b.
  split; [exact Lc|]. split; [apply W1b|]. split; [exact Lp|]. split; [exact Lk|].
  unfold s_msgs. repeat (constructor; [first [assumption|apply wf_offer; exact Lc|apply cke_wf; exact Lk]|]). constructor.
Qed.

Lemma flight_keys m r sh certs skx r' : server_flight m r sh certs skx r' -> r_dec r' = r_dec r /\ r_iv r' = r_iv r.
Proof.
  intros (r1 & r2 & r3 & F1 & F2 & F3 & F4). apply read_handshake_keys in F1, F2, F3, F4. intuition congruence.
Qed.

Lemma server_ok m r w g b sh certs skx pub pms r' g' : server_flight m r sh certs skx r' -> check_server_hello sh = Ok tt ->
  compute_keys m skx g = (Ok (pub, pms), g') -> ph_server m (Client r w g b) = (Ok (sh, certs, skx, pub, pms), Client r' w g' b).
Proof.
  intros (r1 & r2 & r3 & F1 & F2 & F3 & F4) Ck K. unfold ph_server.
  unfold mbind at 1. rewrite expect_run, F1. cbn [pick_server_hello]. unfold mbind at 1, mlift at 1. rewrite Ck.
  unfold mbind at 1. rewrite expect_run, F2. cbn [pick_certificate]. unfold mbind at 1. rewrite expect_run, F3. cbn [pick_server_key_exchange].
  unfold mbind at 1, on_rng at 1. cbn [c_reader c_writer c_rng c_buf]. rewrite K.
  unfold mbind at 1. rewrite expect_run, F4. reflexivity.
Qed.
Theorem handshake_cases m s p g x c : client_handshake m (client_init s p g) = (x, c) ->
  c_buf c = [] /\
  ((exists ss, x = Ok tt /\ reached m s g (Complete ss) /\ answered m s ss (c_reader c) /\ ready m (Complete ss) p (c_writer c)) \/
   (exists st, failed x /\ reached m s g st /\ ready m st p (c_writer c) /\
      match st with
      | Complete ss => (forall r', ~ answered m s ss r')
      | Nothing => x = Panic /\ (length g < 32)%nat
      | Hello _ => forall ss, ~ reached m s g (Complete ss)
      end) \/
   (exists st, x = Err IoFailure /\ reached m s g st /\ cut p (stage_out st) (w_out (c_writer c)))).
Proof.
  rewrite phases. intros E. unfold client_init in E. unfold mbind at 1 in E.
  destruct (hello_run m (reader_new s) (writer_new p) g [] eq_refl eq_refl) as [[L R]|(L & x1 & w1 & S1 & R)]; rewrite R in E; clear R.
  { apply pair_equal_spec in E as [<- <-]. split; [reflexivity|]. right; left. exists Nothing. repeat split; auto. }
  destruct (sent_outcome _ _ _ _ _ S1) as [-> | ->].
  2:{ apply pair_equal_spec in E as [<- <-]. split; [reflexivity|]. right; right. exists (Hello (firstn 32 g)). split; [reflexivity|].
      split; [split; auto|]. destruct S1 as ([[? _]|(_ & Hn & b1 & b2 & Hb & Ho)] & _); [discriminate|]. split; [exact Hn|]. exists b2.
      cbn [c_writer]. rewrite Ho. exact Hb. }
  set (cr := firstn 32 g) in *. unfold mbind at 1 in E. cbv beta iota in E.
  pose proof S1 as ([[_ O1]|(N & _)] & A1 & B1 & H1 & C1); [|discriminate]. specialize (C1 eq_refl).
  cbn [w_enc w_iv w_count w_out writer_new app Z.add] in A1, B1, C1, O1.
  destruct (server_cases m (reader_new s) w1 (skipn 32 g) [] I) as [(sh & certs & skx & pub & pms & r' & g' & R & Fl & Ck & K)|(x2 & r' & g' & R & Fx)];
    rewrite R in E.
  2:{ assert (E' : failed x /\ c = Client r' w1 g' []).
      { destruct x2; [destruct Fx| | |destruct Fx]; apply pair_equal_spec in E as [<- <-]; split; solve [exact I|reflexivity]. }
      destruct E' as [Fx' ->]. split; [reflexivity|]. right; left. exists (Hello cr). split; [exact Fx'|]. split; [split; auto|].
      split; [split; [exact O1|]; auto|]. intros ss (_ & _ & (r2 & Fl) & V & Su & Co & (g2 & K)).
      pose proof (server_ok m _ w1 _ [] _ _ _ _ _ _ _ Fl (proj2 (check_inv _) (conj V (conj Su Co))) K) as Y. rewrite R in Y.
      apply pair_equal_spec in Y as [-> _]. exact Fx. }
  clear R. cbv beta iota in E. apply check_inv in Ck as (V & Su & Co).
  set (ss := Session cr sh certs skx pub pms).
  assert (RC : reached m s g (Complete ss)).
  { split; [exact L|]. split; [reflexivity|]. split; [exists r'; exact Fl|]. repeat split; auto. exists g'. exact K. }
  pose proof (session_good _ _ _ _ RC) as G. pose proof G as (Lc & Ls & Lp & Lk & _).
  unfold mbind at 1 in E. change pub with (s_cke ss) in E.
  destruct (exchange_run m r' w1 g' [] ss Lk A1 ltac:(lia) ltac:(lia)) as (x2 & w2 & S2 & R). rewrite R in E; clear R.
  destruct (sent_outcome _ _ _ _ _ S2) as [-> | ->].
  2:{ apply pair_equal_spec in E as [<- <-]. split; [reflexivity|]. right; right. exists (Complete ss). split; [reflexivity|]. split; [exact RC|].
      destruct S2 as ([[? _]|(_ & Hn & b1 & b2 & Hb & Ho)] & _); [discriminate|]. split; [tauto|]. exists (b2 ++ flight_finished ss).
      cbn [c_writer stage_out]. rewrite Ho, Hb, O1, <- !app_assoc. reflexivity. }
  pose proof S2 as ([[_ O2]|(N & _)] & A2 & B2 & H2 & C2); [|discriminate]. specialize (C2 eq_refl). rewrite A1 in A2. rewrite B1 in B2.
  unfold mbind at 1 in E. destruct (flight_keys _ _ _ _ _ _ Fl) as [D' I']. cbn [reader_new r_dec r_iv] in D', I'.
  change cr with (s_cr ss) in E. change sh with (s_sh ss) in E. change pms with (s_pms ss) in E.
  rewrite (keys_run m r' w2 g' [] ss Lc Ls Lp A2 B2 I') in E. cbv beta iota in E.
  unfold mbind at 1 in E. change certs with (s_certs ss) in E. change skx with (s_ske ss) in E.
  destruct (finished_run m (ived_reader r' (s_keys ss)) (keyed_writer m w2 (s_keys ss)) g' [] ss G eq_refl eq_refl eq_refl) as (x3 & w3 & S3 & R).
  rewrite R in E; clear R.
  destruct (sent_outcome _ _ _ _ _ S3) as [-> | ->].
  2:{ apply pair_equal_spec in E as [<- <-]. split; [reflexivity|]. right; right. exists (Complete ss). split; [reflexivity|]. split; [exact RC|].
      destruct S3 as ([[? _]|(_ & Hn & b1 & b2 & Hb & Ho)] & _); [discriminate|]. split; [unfold healthy in *; cbn [keyed_writer w_plan] in Hn; tauto|]. exists b2.
      cbn [c_writer stage_out]. rewrite Ho, Hb. cbn [keyed_writer w_out]. rewrite O2, O1, <- !app_assoc. reflexivity. }
  pose proof S3 as ([[_ O3]|(N & _)] & A3 & B3 & H3 & C3); [|discriminate]. specialize (C3 eq_refl).
  cbn [keyed_writer w_out w_enc w_iv w_count Z.add] in A3, B3, C3, O3.
  assert (RD : ready m (Complete ss) p w3).
  { split; [cbn [stage_out]; rewrite O3, O2, O1, <- !app_assoc; reflexivity|]. split; [unfold healthy in *; cbn [keyed_writer w_plan] in H3; tauto|]. auto. }
  assert (Det : forall r2, server_flight m (reader_new s) (s_sh ss) (s_certs ss) (s_ske ss) r2 -> r2 = r').
  { intros r2 (q1 & q2 & q3 & Q1 & Q2 & Q3 & Q4). destruct Fl as (t1 & t2 & t3 & T1 & T2 & T3 & T4). congruence. }
  destruct (accept_cases m (ived_reader r' (s_keys ss)) w3 g' [] ss G D') as [(r2 & An & R)|[(v & r2 & An & Nv & R)|(x4 & r2 & R & Fx & An)]];
    cbv zeta in R; rewrite R in E; clear R.
  - apply pair_equal_spec in E as [<- <-]. split; [reflexivity|]. left. exists ss. repeat split; auto; try apply RC; try apply RD.
    exists r'. split; [exact Fl|exact An].
  - apply pair_equal_spec in E as [<- <-]. split; [reflexivity|]. right; left. exists (Complete ss). split; [exact I|]. split; [exact RC|]. split; [exact RD|].
    intros r3 (r4 & F4 & A4). apply Det in F4. subst r4. destruct An as (ra & P1 & P2), A4 as (rb & P3 & P4).
    rewrite P1 in P3. apply pair_equal_spec in P3 as [_ <-]. rewrite P2 in P4. apply Nv. congruence.
  - apply pair_equal_spec in E as [<- <-]. split; [reflexivity|]. right; left. exists (Complete ss). split; [exact Fx|]. split; [exact RC|]. split; [exact RD|].
    intros r3 (r4 & F4 & A4). apply Det in F4. subst r4. exact (An _ _ A4).
Qed.

(** ** The alert *)
Lemma alert_code k : rfc_alert_desc (alert_from_err k) = alert_for k.
Proof. destruct k; reflexivity. Qed.
Lemma tls_write_alert k : tls_write i_alert (Alert AL_fatal (alert_from_err k)) = Ok [x02; z2b (alert_for k)].
Proof. destruct k; reflexivity. Qed.
Lemma alert_run m st p w k : ready m st p w -> exists x w', write_alert m (Alert AL_fatal (alert_from_err k)) w = (x, w') /\ sent w (alert_out st k) 1 x w'.
Proof.
  intros (O & H & R). unfold write_alert, mbind, mlift. rewrite tls_write_alert.
  assert (Lg : legal_fragment [x02; z2b (alert_for k)]) by (split; cbn; lia).
  destruct st as [|cr|ss]; destruct R as (A & B & C).
  - apply write_one_clear; try assumption; lia.
  - apply write_one_clear; try assumption; lia.
  - destruct (key_block_lengths (s_master ss) (s_cr ss) (sh_random (s_sh ss))) as (K1 & _ & K3 & _).
    cbn [alert_out].
    pose proof (write_one_sealed m AlertTy _ w _ _ Lg K1 K3 A B) as X. rewrite C in X. apply X; lia.
Qed.

(** every outcome of [TlsClient::new] *)
Inductive outcome (m : mode) (s : src) (p : list wevent) (g : rng) : res unit -> client -> Prop :=
| Connected ss c : reached m s g (Complete ss) -> answered m s ss (c_reader c) -> ready m (Complete ss) p (c_writer c) ->
    c_buf c = [] -> outcome m s p g (Ok tt) c
| WriteFailed st c : reached m s g st -> cut p (stage_out st) (w_out (c_writer c)) -> outcome m s p g (Err IoFailure) c
| ReadFailed st c : reached m s g st -> stopped m s g st -> w_out (c_writer c) = stage_out st -> outcome m s p g (Err IoFailure) c
| Alerted st k c : reached m s g st -> stopped m s g st -> k <> IoFailure -> w_out (c_writer c) = stage_out st ++ alert_out st k ->
    outcome m s p g (Err k) c
| AlertFailed st k sent c : reached m s g st -> stopped m s g st -> k <> IoFailure -> w_out (c_writer c) = stage_out st ++ sent ->
    cut p (alert_out st k) sent -> outcome m s p g (Err IoFailure) c
| Panicked st c : reached m s g st -> stopped m s g st -> w_out (c_writer c) = stage_out st -> outcome m s p g Panic c.

Theorem client_new_cases m s p g x c : client_new m s p g = (x, c) -> outcome m s p g x c.
Proof.
  unfold client_new, or_alert. destruct (client_handshake m (client_init s p g)) as [y c1] eqn:E. apply handshake_cases in E as (B & E).
  destruct E as [(ss & -> & R & A & W)|[(st & F & R & W & St')|(st & -> & R & W)]].
  - intros H. apply pair_equal_spec in H as [<- <-]. econstructor; eauto.
  - assert (St : stopped m s g st) by (destruct st; [apply St'|exact St'|exact St']). clear St'. destruct y as [|k| |]; [destruct F| | |destruct F].
    2:{ intros H. apply pair_equal_spec in H as [<- <-]. eapply Panicked; [exact R|exact St|apply W]. }
    unfold send_tls_alert. assert (D : k = IoFailure \/ k <> IoFailure) by (destruct k; auto; right; discriminate).
    destruct D as [-> | D].
    + cbv [mret]. intros H. apply pair_equal_spec in H as [<- <-]. eapply ReadFailed; [exact R|exact St|apply W].
    + destruct (alert_run m st p (c_writer c1) k W) as (y & w' & Ew & S).
      replace (match k with IoFailure => _ | _ => _ end c1) with
        (match on_writer (write_alert m (Alert AL_fatal (alert_from_err k))) c1 with
         | (Ok _, c') => (Ok k, c') | (Err k', c') => (Ok k', c') | (Panic, c') => (Panic, c') | (Diverge, c') => (Diverge, c') end)
        by (destruct k; try reflexivity; congruence).
      unfold on_writer. rewrite Ew. destruct W as (O & Hh & _).
      destruct S as ([[-> O']|(-> & Hn & a & b & Eb & O')] & _); intros H; apply pair_equal_spec in H as [<- <-].
      * eapply Alerted; [exact R|exact St|exact D|]. cbn [c_writer]. rewrite O', O. reflexivity.
      * eapply AlertFailed with (sent := a); [exact R|exact St|exact D|cbn [c_writer]; rewrite O', O; reflexivity|]. split; [tauto|]. exists b. exact Eb.
  - cbn [send_tls_alert]. cbv [mret]. intros H. apply pair_equal_spec in H as [<- <-]. eapply WriteFailed; eauto.
Qed.
