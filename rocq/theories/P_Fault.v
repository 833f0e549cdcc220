(** Proofs about src/client.rs: which error construction returns. *)
From Verif Require Import Spec_Client P_Util P_Codec P_RecordW P_RecordR P_Record P_Ecdhe P_Halt P_Client P_Client2 P_Client3.
From Coq Require Import ZifyBool ZifyNat ZifyN.
Import String.StringSyntax.
Local Open Scope string_scope.
Local Open Scope list_scope.
Local Open Scope Z_scope.
#[local] Opaque SHA256 HMAC aead_seal aead_decrypt aead_encrypt compute_keys PRF nmul.

Lemma offered_check sh : offered sh <-> check_server_hello sh = Ok tt.
Proof. symmetry. apply check_inv. Qed.
Lemma check_refuses sh : ~ offered sh -> check_server_hello sh = Err IllegalParameter.
Proof.
  intros N. rewrite offered_check in N. unfold check_server_hello in *. repeat (destruct (negb _); [reflexivity|]). contradiction.
Qed.
Lemma expect_refused {A} m (pick : handshake -> option A) (P : handshake -> Prop) r w g b k :
  (forall h, P h <-> pick h <> None) -> 
  (refused m r P k <-> exists r', expect m pick (Client r w g b) = (Err k, Client r' w g b)).
Proof.
  intros H. rewrite expect_run. split.
  - intros [(r' & E)|(-> & h & r' & E & N)]; rewrite E; [eexists; reflexivity|]. exists r'. rewrite H in N. destruct (pick h); [|reflexivity].
    exfalso. apply N. discriminate.
  - intros (r' & E). destruct (read_handshake m r) as [[h|k'| |] r1] eqn:R; try discriminate E.
    + right. destruct (pick h) eqn:P1; [discriminate E|]. apply pair_equal_spec in E as [E _]. injection E as <-. split; [reflexivity|]. exists h, r1.
      split; [exact R|]. rewrite H, P1. tauto.
    + left. apply pair_equal_spec in E as [E _]. cbn in E. injection E as ->. eauto.
Qed.
Lemma picks_hello h : (exists sh, h = server_hello_msg sh) <-> pick_server_hello h <> None.
Proof. destruct h; cbn; split; try discriminate; try (intros (? & ?); discriminate); try tauto; eauto. Qed.
Lemma picks_certificate h : (exists sh, h = certificate sh) <-> pick_certificate h <> None.
Proof. destruct h; cbn; split; try discriminate; try (intros (? & ?); discriminate); try tauto; eauto. Qed.
Lemma picks_exchange h : (exists sh, h = server_key_exchange sh) <-> pick_server_key_exchange h <> None.
Proof. destruct h; cbn; split; try discriminate; try (intros (? & ?); discriminate); try tauto; eauto. Qed.
Lemma picks_done h : h = server_hello_done <-> pick_server_hello_done h <> None.
Proof. destruct h; cbn; split; try discriminate; try tauto; eauto. Qed.
Lemma picks_finished h : (exists sh, h = finished sh) <-> pick_finished h <> None.
Proof. destruct h; cbn; split; try discriminate; try (intros (? & ?); discriminate); try tauto; eauto. Qed.

(** ** The server's first flight *)
Lemma flight_faults m s w g b k : fault_flight m s g k <->
  exists r' g', ph_server m (Client (reader_new s) w g b) = (Err k, Client r' w g' b).
Proof.
  split.
  - intros F. unfold ph_server. destruct F as [k F|sh r1 F1 O|sh r1 k F1 O F|sh certs r1 r2 k F1 O F2 F|sh certs skx r1 r2 r3 k g' F1 O F2 F3 K|sh certs skx r1 r2 r3 kp g' k F1 O F2 F3 K F].
    + apply (expect_refused m _ _ _ w g b k picks_hello) in F as (r' & F). unfold mbind at 1. rewrite F. eauto.
    + unfold mbind at 1. rewrite expect_run, F1. cbn [pick_server_hello]. unfold mbind at 1, mlift at 1. rewrite check_refuses by exact O. eauto.
    + unfold mbind at 1. rewrite expect_run, F1. cbn [pick_server_hello]. unfold mbind at 1, mlift at 1. rewrite (proj1 (offered_check _) O).
      apply (expect_refused m _ _ _ w g b k picks_certificate) in F as (r' & F). unfold mbind at 1. rewrite F. eauto.
    + unfold mbind at 1. rewrite expect_run, F1. cbn [pick_server_hello]. unfold mbind at 1, mlift at 1. rewrite (proj1 (offered_check _) O).
      unfold mbind at 1. rewrite expect_run, F2. cbn [pick_certificate].
      apply (expect_refused m _ _ _ w g b k picks_exchange) in F as (r' & F). unfold mbind at 1. rewrite F. eauto.
    + unfold mbind at 1. rewrite expect_run, F1. cbn [pick_server_hello]. unfold mbind at 1, mlift at 1. rewrite (proj1 (offered_check _) O).
      unfold mbind at 1. rewrite expect_run, F2. cbn [pick_certificate].
      unfold mbind at 1. rewrite expect_run, F3. cbn [pick_server_key_exchange]. unfold mbind at 1, on_rng at 1. cbn [c_rng c_reader c_writer c_buf]. rewrite K. eauto.
    + unfold mbind at 1. rewrite expect_run, F1. cbn [pick_server_hello]. unfold mbind at 1, mlift at 1. rewrite (proj1 (offered_check _) O).
      unfold mbind at 1. rewrite expect_run, F2. cbn [pick_certificate].
      unfold mbind at 1. rewrite expect_run, F3. cbn [pick_server_key_exchange]. unfold mbind at 1, on_rng at 1. cbn [c_rng c_reader c_writer c_buf]. rewrite K. destruct kp as [pub pms].
      apply (expect_refused m _ _ _ w g' b k picks_done) in F as (r' & F). unfold mbind at 1. rewrite F. eauto.
  - intros (r' & g' & E). unfold ph_server in E. unfold mbind at 1 in E.
    destruct (expect m pick_server_hello (Client (reader_new s) w g b)) as [[sh|k1| |] c1] eqn:X1; try discriminate E.
    2:{ apply FF_hello. eapply (expect_refused m _ _ _ w g b k picks_hello). apply pair_equal_spec in E as [E ->]. injection E as ->.
        rewrite X1. rewrite expect_run in X1. destruct (read_handshake m (reader_new s)) as [[h|k2| |] r1]; apply pair_equal_spec in X1 as [_ X1]; rewrite <- X1; eauto. }
    rewrite expect_run in X1. destruct (read_handshake m (reader_new s)) as [[h|k2| |] r1] eqn:R1; try discriminate X1.
    destruct (pick_server_hello h) as [sh'|] eqn:P1; [|discriminate X1]. apply pair_equal_spec in X1 as [X1 <-]. injection X1 as ->.
    destruct h; try discriminate P1. cbn in P1. injection P1 as ->.
    unfold mbind at 1, mlift at 1 in E.
    destruct (check_server_hello sh) as [[]|k1| |] eqn:O.
    2:{ assert (N : ~ offered sh) by (rewrite offered_check; congruence). rewrite (check_refuses _ N) in O. injection O as <-.
        apply pair_equal_spec in E as [E _]. injection E as <-. eapply FF_parameters; eauto. }
    2:{ discriminate E. } 2:{ discriminate E. }
    apply offered_check in O. unfold mbind at 1 in E.
    destruct (expect m pick_certificate (Client r1 w g b)) as [[certs|k1| |] c1] eqn:X2; try discriminate E.
    2:{ eapply FF_certificate; [exact R1|exact O|]. eapply (expect_refused m _ _ _ w g b k picks_certificate). apply pair_equal_spec in E as [E ->]. injection E as ->.
        rewrite X2. rewrite expect_run in X2. destruct (read_handshake m r1) as [[h|k2| |] r2]; apply pair_equal_spec in X2 as [_ X2]; rewrite <- X2; eauto. }
    rewrite expect_run in X2. destruct (read_handshake m r1) as [[h|k2| |] r2] eqn:R2; try discriminate X2.
    destruct (pick_certificate h) as [sh'|] eqn:P1; [|discriminate X2]. apply pair_equal_spec in X2 as [X2 <-]. injection X2 as ->.
    destruct h; try discriminate P1. cbn in P1. injection P1 as ->.
    unfold mbind at 1 in E.
    destruct (expect m pick_server_key_exchange (Client r2 w g b)) as [[skx|k1| |] c1] eqn:X3; try discriminate E.
    2:{ eapply FF_exchange; [exact R1|exact O|exact R2|]. eapply (expect_refused m _ _ _ w g b k picks_exchange). apply pair_equal_spec in E as [E ->]. injection E as ->.
        rewrite X3. rewrite expect_run in X3. destruct (read_handshake m r2) as [[h|k2| |] r3]; apply pair_equal_spec in X3 as [_ X3]; rewrite <- X3; eauto. }
    rewrite expect_run in X3. destruct (read_handshake m r2) as [[h|k2| |] r3] eqn:R3; try discriminate X3.
    destruct (pick_server_key_exchange h) as [sh'|] eqn:P1; [|discriminate X3]. apply pair_equal_spec in X3 as [X3 <-]. injection X3 as ->.
    destruct h; try discriminate P1. cbn in P1. injection P1 as ->.
    unfold mbind at 1, on_rng at 1 in E. cbn [c_rng c_reader c_writer c_buf] in E.
    destruct (compute_keys m skx g) as [[[pub pms]|k1| |] g1] eqn:K; try discriminate E.
    2:{ apply pair_equal_spec in E as [E _]. injection E as <-. eapply FF_keys; eauto. }
    unfold mbind at 1 in E.
    destruct (expect m pick_server_hello_done (Client r3 w g1 b)) as [[[]|k1| |] c1] eqn:X4; try discriminate E.
    eapply FF_done; [exact R1|exact O|exact R2|exact R3|exact K|]. eapply (expect_refused m _ _ _ w g1 b k picks_done). apply pair_equal_spec in E as [E ->]. injection E as ->.
    rewrite X4. rewrite expect_run in X4. destruct (read_handshake m r3) as [[h|k2| |] r4]; apply pair_equal_spec in X4 as [_ X4]; rewrite <- X4; eauto.
Qed.

(** ** Its second flight *)
Lemma answer_faults m r w g b ss k : good_session ss -> r_dec r = None ->
  (fault_answer m r ss k <-> exists r', ph_accept m (s_master ss) (k_server (s_keys ss)) (concat (map e_handshake (s_msgs ss))) (s_client_fin ss) (Client r w g b) = (Err k, Client r' w g b)).
Proof.
  intros G D.
  pose proof (accept_cases m r w g b ss G D) as A. cbv zeta in A.
  assert (Step : forall r1, read_change_cipher_spec m r = (Ok tt, r1) -> forall k' r2, expect m pick_finished (Client (decrypting m r1 (s_keys ss)) w g b) = (Err k', Client r2 w g b) ->
    ph_accept m (s_master ss) (k_server (s_keys ss)) (concat (map e_handshake (s_msgs ss))) (s_client_fin ss) (Client r w g b) = (Err k', Client r2 w g b)).
  { intros r1 R1 k' r2 X. unfold ph_accept. unfold mbind at 1, on_reader at 1. cbn [c_rng c_reader c_writer c_buf]. rewrite R1.
    unfold mbind at 1, on_reader at 1, r_set_decryptor. cbn [c_rng c_reader c_writer c_buf].
    destruct (read_ccs_keys _ _ _ _ R1) as [D1 _]. rewrite D1, D.
    change (Reader (r_src r1) _ 0 (r_buf r1) (r_iv r1)) with (decrypting m r1 (s_keys ss)).
    unfold mbind at 1. rewrite X. reflexivity. }
  split.
  - intros [k' r' R|r1 k' R F|v r' An N].
    + unfold ph_accept. unfold mbind at 1, on_reader at 1. cbn [c_rng c_reader c_writer c_buf]. rewrite R. eauto.
    + apply (expect_refused m _ _ _ w g b k' picks_finished) in F as (r2 & F). eauto.
    + destruct A as [(r2 & An2 & _)|[(v2 & r2 & An2 & N2 & ->)|(x & r2 & _ & _ & No)]]; [|eauto|exfalso; eapply No; exact An].
      exfalso. destruct An as (ra & P1 & P2), An2 as (rb & P3 & P4). rewrite P1 in P3. apply pair_equal_spec in P3 as [_ <-]. rewrite P2 in P4. apply N. congruence.
  - intros (r' & E). destruct A as [(r2 & _ & Y)|[(v & r2 & An & N & Y)|(x & r2 & Y & Fx & No)]]; rewrite Y in E.
    + discriminate E.
    + apply pair_equal_spec in E as [E _]. injection E as <-. eapply FA_verify; eauto.
    + apply pair_equal_spec in E as [-> _]. 
      destruct (read_change_cipher_spec m r) as [[[]|k1| |] r1] eqn:R1.
      * assert (T : terminates (r_dec (decrypting m r1 (s_keys ss)))) by apply decryptor_terminates.
        destruct (expect m pick_finished (Client (decrypting m r1 (s_keys ss)) w g b)) as [y c1] eqn:X. pose proof X as X'.
        rewrite expect_run in X'. destruct (read_handshake m (decrypting m r1 (s_keys ss))) as [[h|k2| |] r3] eqn:R2.
        -- destruct (pick_finished h) as [v|] eqn:P.
           { exfalso. destruct h; try discriminate P. eapply (No _ r3). exists r1. split; [exact R1|]. exact R2. }
           apply pair_equal_spec in X' as [<- <-]. rewrite (Step r1 eq_refl _ _ X) in Y. apply pair_equal_spec in Y as [Y _]. injection Y as <-.
           eapply FA_finished; [exact R1|]. eapply (expect_refused m _ _ _ w g b _ picks_finished). eauto.
        -- apply pair_equal_spec in X' as [<- <-]. cbn [as_fail] in X. rewrite (Step r1 eq_refl _ _ X) in Y. apply pair_equal_spec in Y as [Y _]. injection Y as <-.
           eapply FA_finished; [exact R1|]. eapply (expect_refused m _ _ _ w g b _ picks_finished). eauto.
        -- exfalso. unfold ph_accept in Y. unfold mbind at 1, on_reader at 1 in Y. cbn [c_rng c_reader c_writer c_buf] in Y. rewrite R1 in Y.
           unfold mbind at 1, on_reader at 1, r_set_decryptor in Y. cbn [c_rng c_reader c_writer c_buf] in Y.
           destruct (read_ccs_keys _ _ _ _ R1) as [D1 _]. rewrite D1, D in Y.
           change (Reader (r_src r1) _ 0 (r_buf r1) (r_iv r1)) with (decrypting m r1 (s_keys ss)) in Y.
           unfold mbind at 1 in Y. rewrite X in Y. apply pair_equal_spec in X' as [<- <-]. discriminate Y.
        -- pose proof (read_handshake_halts m _ T) as H. rewrite R2 in H. destruct H.
      * unfold ph_accept in Y. unfold mbind at 1, on_reader at 1 in Y. cbn [c_rng c_reader c_writer c_buf] in Y. rewrite R1 in Y.
        apply pair_equal_spec in Y as [Y _]. injection Y as <-. eapply FA_ccs; exact R1.
      * exfalso. unfold ph_accept in Y. unfold mbind at 1, on_reader at 1 in Y. cbn [c_rng c_reader c_writer c_buf] in Y. rewrite R1 in Y. discriminate Y.
      * exfalso. unfold ph_accept in Y. unfold mbind at 1, on_reader at 1 in Y. cbn [c_rng c_reader c_writer c_buf] in Y. rewrite R1 in Y. discriminate Y.
Qed.

(** ** The whole construction on a working transport *)
Lemma handshake_run m s p g : healthy (writer_new p) -> (32 <= length g)%nat ->
  (exists w1, ready m (Hello (firstn 32 g)) p w1 /\ exists x r' g', failed x /\ ph_server m (Client (reader_new s) w1 (skipn 32 g) []) = (x, Client r' w1 g' []) /\
     client_handshake m (client_init s p g) = (as_fail x, Client r' w1 g' [])) \/
  (exists ss r w3 g', reached m s g (Complete ss) /\ server_flight m (reader_new s) (s_sh ss) (s_certs ss) (s_ske ss) r /\ ready m (Complete ss) p w3 /\
     client_handshake m (client_init s p g) =
     ph_accept m (s_master ss) (k_server (s_keys ss)) (concat (map e_handshake (s_msgs ss))) (s_client_fin ss) (Client (ived_reader r (s_keys ss)) w3 g' [])).
Proof.
  intros H L. pose proof (f_equal (fun f => f (client_init s p g)) (eq_refl (client_handshake m))) as P. cbv beta in P. rewrite phases in P at 2. unfold client_init at 2 in P. unfold mbind at 1 in P.
  destruct (hello_run m (reader_new s) (writer_new p) g [] eq_refl eq_refl) as [[L' R]|(_ & x1 & w1 & S1 & R)]; [lia|]; rewrite R in P; clear R.
  pose proof S1 as ([[-> O1]|(_ & Hn & _)] & A1 & B1 & H1 & C1); [|contradiction]. specialize (C1 eq_refl).
  cbn [w_enc w_iv w_count w_out writer_new app Z.add] in A1, B1, C1, O1.
  set (cr := firstn 32 g) in *. 
  destruct (server_cases m (reader_new s) w1 (skipn 32 g) [] I) as [(sh & certs & skx & pub & pms & r' & g' & R & Fl & Ck & K)|(x2 & r' & g' & R & Fx)].
  2:{ left. exists w1. split; [split; [exact O1|]; auto|]. exists x2, r', g'. split; [exact Fx|]. split; [exact R|]. unfold mbind at 1 in P. rewrite R in P. destruct x2; try destruct Fx; exact P. }
  right. unfold mbind at 1 in P. rewrite R in P. clear R. apply check_inv in Ck as (V & Su & Co).
  set (ss := Session cr sh certs skx pub pms).
  assert (RC : reached m s g (Complete ss)).
  { split; [exact L|]. split; [reflexivity|]. split; [exists r'; exact Fl|]. repeat split; auto. exists g'. exact K. }
  pose proof (session_good _ _ _ _ RC) as G. pose proof G as (Lc & Ls & Lp & Lk & _).
  unfold mbind at 1 in P. change pub with (s_cke ss) in P.
  destruct (exchange_run m r' w1 g' [] ss Lk A1 ltac:(lia) ltac:(lia)) as (x2 & w2 & S2 & R). rewrite R in P; clear R.
  pose proof S2 as ([[-> O2]|(_ & Hn & _)] & A2 & B2 & H2 & C2); [|exfalso; apply Hn; auto]. specialize (C2 eq_refl). rewrite A1 in A2. rewrite B1 in B2.
  unfold mbind at 1 in P. destruct (flight_keys _ _ _ _ _ _ Fl) as [D' I']. cbn [reader_new r_dec r_iv] in D', I'.
  change cr with (s_cr ss) in P. change sh with (s_sh ss) in P. change pms with (s_pms ss) in P.
  rewrite (keys_run m r' w2 g' [] ss Lc Ls Lp A2 B2 I') in P.
  unfold mbind at 1 in P. change certs with (s_certs ss) in P. change skx with (s_ske ss) in P.
  destruct (finished_run m (ived_reader r' (s_keys ss)) (keyed_writer m w2 (s_keys ss)) g' [] ss G eq_refl eq_refl eq_refl) as (x3 & w3 & S3 & R).
  rewrite R in P; clear R.
  assert (Hw2 : healthy (keyed_writer m w2 (s_keys ss))) by (unfold healthy in *; cbn [keyed_writer w_plan]; auto).
  pose proof S3 as ([[-> O3]|(_ & Hn & _)] & A3 & B3 & H3 & C3); [|contradiction]. specialize (C3 eq_refl).
  cbn [keyed_writer w_out w_enc w_iv w_count Z.add] in A3, B3, C3, O3.
  exists ss, r', w3, g'. split; [exact RC|]. split; [exact Fl|]. split; [|exact P].
  split; [cbn [stage_out]; rewrite O3, O2, O1, <- !app_assoc; reflexivity|]. split; [intros _; apply H3; exact Hw2|]. auto.
Qed.
Lemma alert_after m st p c k : ready m st p (c_writer c) -> healthy (writer_new p) -> exists c', send_tls_alert m k c = (Ok k, c') /\
  w_out (c_writer c') = stage_out st ++ signal st k.
Proof.
  intros R H. unfold signal. assert (Dk : k = IoFailure \/ k <> IoFailure) by (destruct k; auto; right; discriminate). destruct Dk as [-> | Dk].
  { exists c. split; [reflexivity|]. rewrite app_nil_r. apply R. }
  destruct (alert_run m st p (c_writer c) k R) as (y & w' & Ew & S).
  replace (send_tls_alert m k c) with
        (match on_writer (write_alert m (Alert AL_fatal (alert_from_err k))) c with
         | (Ok _, c') => (Ok k, c') | (Err k', c') => (Ok k', c') | (Panic, c') => (Panic, c') | (Diverge, c') => (Diverge, c') end)
        by (destruct k; try reflexivity; congruence).
  unfold on_writer. rewrite Ew. destruct S as ([[-> O]|(_ & Hn & _)] & _).
  - eexists. split; [reflexivity|]. cbn [c_writer]. rewrite O. destruct R as [-> _]. destruct k; try reflexivity; congruence.
  - exfalso. apply Hn. destruct R as (_ & R & _). auto.
Qed.
Theorem faults m s p g st k : healthy (writer_new p) -> (32 <= length g)%nat -> fault m s g st k ->
  exists c, client_new m s p g = (Err k, c) /\ w_out (c_writer c) = stage_out st ++ signal st k.
Proof.
  intros H L F. unfold client_new, or_alert.
  destruct (handshake_run m s p g H L) as [(w1 & R & x & r' & g' & Fx & E & ->)|(ss & r & w3 & g' & RC & Fl & R & ->)].
  - destruct F as [k F|ss r k RC Fl F].
    + destruct (proj1 (flight_faults m s w1 (skipn 32 g) [] k) F) as (r2 & g2 & F'). clear F. rename F' into F. rewrite F in E. apply pair_equal_spec in E as [<- E]. cbn [as_fail].
      destruct (alert_after m _ p (Client r' w1 g' []) k R H) as (c' & -> & O). eauto.
    + exfalso. destruct RC as (_ & _ & _ & V & Su & Co & (g2 & K)).
      pose proof (server_ok m _ w1 _ [] _ _ _ _ _ _ _ Fl (proj2 (check_inv _) (conj V (conj Su Co))) K) as Y. rewrite E in Y.
      apply pair_equal_spec in Y as [-> _]. exact Fx.
  - pose proof (session_good _ _ _ _ RC) as G. destruct F as [k F|ss2 r2 k RC2 Fl2 F].
    + exfalso. destruct (proj1 (flight_faults m s (writer_new p) (skipn 32 g) [] k) F) as (r2 & g2 & F'). clear F. rename F' into F.
      destruct RC as (_ & _ & _ & V & Su & Co & (g3 & K)).
      pose proof (server_ok m _ (writer_new p) _ [] _ _ _ _ _ _ _ Fl (proj2 (check_inv _) (conj V (conj Su Co))) K) as Y. rewrite F in Y. discriminate Y.
    + pose proof (reached_det _ _ _ _ _ RC RC2) as <-. assert (r2 = r) as ->.
      { destruct Fl as (q1 & q2 & q3 & Q1 & Q2 & Q3 & Q4), Fl2 as (t1 & t2 & t3 & T1 & T2 & T3 & T4). congruence. }
      destruct (flight_keys _ _ _ _ _ _ Fl) as [D' _].
      destruct (proj1 (answer_faults m (ived_reader r (s_keys ss)) w3 g' [] ss k G D') F) as (r' & ->).
      destruct (alert_after m _ p (Client r' w3 g' []) k R H) as (c' & -> & O). eauto.
Qed.
Theorem errors_are_faults m s p g k c : healthy (writer_new p) -> client_new m s p g = (Err k, c) -> exists st, fault m s g st k.
Proof.
  intros H E. assert (L : (32 <= length g)%nat).
  { pose proof (client_new_cases _ _ _ _ _ _ E) as C. inversion C; subst;
    match goal with R : reached _ _ _ ?st, S : stopped _ _ _ _ |- _ => destruct st; [cbn in S|apply R|apply R] | _ => idtac end.
    all: try match goal with H1 : cut _ _ _ |- _ => destruct H1; contradiction end.
    all: exfalso; unfold client_new, or_alert in E; rewrite phases in E; unfold client_init, mbind at 1 in E;
      destruct (hello_run m (reader_new s) (writer_new p) g [] eq_refl eq_refl) as [[_ X]|(L & _)]; [rewrite X in E; discriminate E|lia]. }
  unfold client_new, or_alert in E.
  assert (D : forall st k' c1, ready m st p (c_writer c1) -> match send_tls_alert m k' c1 with (Ok k2, c2) => (Err k2, c2) | (Err k2, c2) => (Err k2, c2) | (Panic, c2) => (Panic, c2) | (Diverge, c2) => (Diverge, c2) end = (@Err unit k, c) -> k' = k).
  { intros st k' c1 R X. destruct (alert_after m st p c1 k' R H) as (c' & Y & _). rewrite Y in X. apply pair_equal_spec in X as [X _]. injection X as ->. reflexivity. }
  destruct (handshake_run m s p g H L) as [(w1 & R & x & r' & g' & Fx & E1 & Eq)|(ss & r & w3 & g' & RC & Fl & R & Eq)]; rewrite Eq in E.
  - destruct x as [|k'| |]; try destruct Fx; [|discriminate E]. cbn [as_fail] in E. apply (D (Hello (firstn 32 g)) k') in E; [|exact R]. subst k'.
    exists (Hello (firstn 32 g)). apply F_first. apply (flight_faults m s w1 (skipn 32 g) [] k). eauto.
  - pose proof (session_good _ _ _ _ RC) as G. destruct (flight_keys _ _ _ _ _ _ Fl) as [D' _].
    pose proof (accept_cases m (ived_reader r (s_keys ss)) w3 g' [] ss G D') as A. cbv zeta in A.
    destruct (ph_accept m (s_master ss) (k_server (s_keys ss)) (concat (map e_handshake (s_msgs ss))) (s_client_fin ss) (Client (ived_reader r (s_keys ss)) w3 g' [])) as [[[]|k'| |] c1] eqn:P; try discriminate E.
    assert (Ec : exists r2, c1 = Client r2 w3 g' []).
    { destruct A as [(r2 & _ & Y)|[(v & r2 & _ & _ & Y)|(x & r2 & Y & _)]]; apply pair_equal_spec in Y as [_ ->]; eauto. }
    destruct Ec as (r2 & ->). apply (D (Complete ss) k') in E; [|exact R]. subst k'. exists (Complete ss). eapply F_second; [exact RC|exact Fl|].
    apply (answer_faults m (ived_reader r (s_keys ss)) w3 g' [] ss k G D'). eauto.
Qed.
