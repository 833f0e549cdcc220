(** Proofs about src/client.rs: what can make it panic. *)
From Verif Require Import Spec_Client P_Util P_Codec P_CodecProps P_RecordW P_RecordR P_Record P_Record2 P_Aead P_Ecdhe P_Halt P_Client P_Client2 P_App P_App2.
From Coq Require Import ZifyBool ZifyNat ZifyN.
Import String.StringSyntax.
Local Open Scope string_scope.
Local Open Scope list_scope.
Local Open Scope Z_scope.
#[local] Opaque SHA256 HMAC aead_seal aead_decrypt aead_encrypt compute_keys PRF nmul.

(** bytes not yet read *)
Definition left (r : reader) : Z := Z.of_nat (src_size (r_src r)).
Definition later (r r' : reader) : Prop := exists p, all_bytes (r_src r) = p ++ all_bytes (r_src r').
Lemma later_refl r : later r r.
Proof. exists []. reflexivity. Qed.
Lemma later_trans a b c : later a b -> later b c -> later a c.
Proof. intros (p & E) (q & F). exists (p ++ q). rewrite E, F, app_assoc. reflexivity. Qed.
Lemma later_sealed a b key iv k t p : later a b -> sealed_in (r_src b) key iv k t p -> sealed_in (r_src a) key iv k t p.
Proof. intros (q & E) (x & y & maj & min & F). exists (q ++ x), y, maj, min. rewrite E, F, app_assoc. reflexivity. Qed.

Lemma size_all s : src_size s = length (all_bytes s).
Proof. induction s as [|[b|] s IH]; cbn; [reflexivity| |exact IH]. rewrite app_length. unfold src_size, all_bytes in IH. lia. Qed.
Lemma later_left r r' : later r r' -> left r' <= left r.
Proof. intros (p & E). unfold left. rewrite !size_all, E, app_length. lia. Qed.

(** ** One record under the server's key *)
Lemma keyed_record m r key iv k x r' : keyed m r key iv k -> k + 1 < 2 ^ 64 -> read_record m r = (x, r') ->
  later r r' /\ left r' <= left r /\ r_buf r' = r_buf r /\ 
  ((exists e, x = Err e /\ keyed m r' key iv k) \/
   exists t p, sealed_in (r_src r) key iv k t p /\ left r' + 5 <= left r /\
     ((zlen p <= 16384 /\ exists maj min, x = Ok (Rec t maj min p) /\ keyed m r' key iv (k + 1)) \/ (16384 < zlen p /\ x = Panic))).
Proof.
  intros Kd Hk E. pose proof Kd as (D & V & C & Lk & Li & K0).
  destruct (read_record_cases m r) as [(e & r1 & E1 & (S & L & p & P))|(t & maj & min & frag & r1 & E1 & S & L & A & Z)].
  - rewrite E in E1. apply pair_equal_spec in E1 as [-> ->]. split; [exists p; exact P|]. split; [unfold left; lia|].
    rewrite S in *. split; [reflexivity|]. left. exists e. auto.
  - unfold left. assert (Kd1 : keyed m r1 key iv k) by (rewrite S; exact Kd). destruct Kd1 as (D1 & V1 & C1 & _).
    assert (B1 : r_buf r1 = r_buf r) by (rewrite S; reflexivity).
    assert (Fi : fits frag) by (apply fits_record; unfold ENC_RECORD_MAX_LEN in L; lia).
    assert (Hn : length (rfc_nonce iv k) = 12%nat) by (apply rfc_nonce_length; [exact Li|lia]).
    rewrite E1 in E. unfold finish, mbind, unprotect in E. rewrite D1 in E. cbn [new_decryptor dc_mac_len dc_decrypt] in E.
    assert (Bad : forall e, (Err e, r1) = (x, r') -> (later r r' /\ Z.of_nat (src_size (r_src r')) <= Z.of_nat (src_size (r_src r)) /\ r_buf r' = r_buf r /\
       ((exists e, x = Err e /\ keyed m r' key iv k) \/ exists t p, sealed_in (r_src r) key iv k t p /\ Z.of_nat (src_size (r_src r')) + 5 <= Z.of_nat (src_size (r_src r)) /\
     ((zlen p <= 16384 /\ exists maj min, x = Ok (Rec t maj min p) /\ keyed m r' key iv (k + 1)) \/ (16384 < zlen p /\ x = Panic))))).
    { intros e Y. apply pair_equal_spec in Y as [<- <-]. split; [exists (wire t maj min frag); exact A|]. split; [lia|]. split; [exact B1|].
      left. exists e. split; [reflexivity|]. unfold keyed. auto 10. }
    destruct (zlen frag <? 16) eqn:E16; [exact (Bad _ E)|].
    rewrite C1, V1, seq_ad_rfc, seq_nonce_rfc in E by (assumption || lia).
    destruct (open_outcomes m key (rfc_nonce iv k) (rfc_ad k t maj min (zlen frag - 16)) frag Lk Hn Fi) as [(p & O)|O];
      rewrite O in E; cbn [rbind] in E; [|exact (Bad _ E)]. clear Bad.
    apply open_iff_seal in O; [|exact Lk|exact Hn|exact Fi].
    assert (Lf : zlen frag - 16 = zlen p) by (rewrite O, sealed_len; lia). rewrite Lf in O.
    assert (SI : sealed_in (r_src r) key iv k t p) by (exists [], (all_bytes (r_src r1)), maj, min; rewrite A, O; reflexivity).
    unfold record_new in E. destruct (RECORD_MAX_LEN <? zlen p) eqn:Ep.
    + apply pair_equal_spec in E as [<- <-]. split; [exists (wire t maj min frag); exact A|]. split; [lia|]. split; [exact B1|].
      right. exists t, p. split; [exact SI|]. split; [lia|]. right. split; [apply Z.ltb_lt in Ep; exact Ep|reflexivity].
    + unfold r_bump in E. rewrite C1, ck_ok in E by lia. cbn [mret] in E. apply pair_equal_spec in E as [<- <-].
      split; [exists (wire t maj min frag); exact A|]. cbn [r_src r_buf]. split; [lia|]. split; [exact B1|].
      right. exists t, p. split; [exact SI|]. split; [lia|]. left. apply Z.ltb_ge in Ep. split; [exact Ep|].
      exists maj, min. split; [reflexivity|]. unfold keyed. cbn [r_dec r_iv r_count]. repeat (split; [assumption || reflexivity|]). lia.
Qed.

(** ** After the handshake: only the holder of the server's key can make [read] panic *)
Lemma alien_later m a b key iv k k' : later a b -> keyed m b key iv k' -> k <= k' -> alien (r_src b) key iv k' -> alien (r_src a) key iv k.
Proof. intros L K H (j & t & p & Hj & S & N). exists j, t, p. split; [lia|]. split; [eapply later_sealed; eauto|exact N]. Qed.
Lemma read_app_safe m r key iv k x r' : keyed m r key iv k -> no_pending r -> k + left r + 1 < 2 ^ 64 -> read_application_data m r = (x, r') ->
  alien (r_src r) key iv k \/
  (match x with Ok _ | Err _ => True | _ => False end /\ later r r' /\ no_pending r' /\
   exists k', k <= k' /\ keyed m r' key iv k' /\ k' + left r' <= k + left r).
Proof.
  intros Kd NP Hk E. pose proof Kd as (D & _ & _ & _ & _ & K0). unfold read_application_data in E. rewrite D in E. unfold mbind in E.
  rewrite read_message_eq, NP in E. assert (Er : set_buf r (r_buf r) = r) by (destruct r; reflexivity). rewrite Er, pull_eq in E. unfold mbind in E.
  destruct (read_record m r) as [y r1] eqn:R. assert (P0 : 0 <= left r) by (unfold left; lia).
  apply (keyed_record _ _ _ _ _ _ _ Kd ltac:(lia)) in R as (L & Le & B & [(e & -> & Kd1)|(t & p & SI & L5 & [(Lp & maj & min & -> & Kd1)|(Lp & ->)])]).
  - right. apply pair_equal_spec in E as [<- <-]. split; [exact I|]. split; [exact L|]. split; [unfold no_pending in *; rewrite B; exact NP|].
    exists k. split; [lia|]. split; [exact Kd1|lia].
  - assert (T : t = ApplicationDataTy \/ t <> ApplicationDataTy) by (destruct t; auto; right; discriminate).
    destruct T as [-> | T]; [|left; exists k, t, p; split; [lia|]; auto].
    right. cbn [handle_record rc_type rc_fragment mret] in E. unfold mret in E. apply pair_equal_spec in E as [<- <-]. split; [exact I|]. split; [exact L|].
    split; [unfold no_pending in *; rewrite B; exact NP|]. exists (k + 1). split; [lia|]. split; [exact Kd1|lia].
  - left. exists k, t, p. split; [lia|]. auto.
Qed.
Lemma rd_safe m key iv len done c x c' : rd m len done c x c' -> forall k, keyed m (c_reader c) key iv k -> no_pending (c_reader c) ->
  k + left (c_reader c) + 1 < 2 ^ 64 ->
  alien (r_src (c_reader c)) key iv k \/
  (match x with Ok _ | Err _ => True | _ => False end /\ later (c_reader c) (c_reader c') /\ no_pending (c_reader c') /\
   exists k', k <= k' /\ keyed m (c_reader c') key iv k' /\ k' + left (c_reader c') <= k + left (c_reader c)).
Proof.
  induction 1 as [done c L|done c x c' L B R IH|done c d r' x c' L B E R IH|done c e r' L B E|done c r' L B E|done c r' L B E]; intros k Kd NP Hk.
  - right. split; [exact I|]. split; [apply later_refl|]. split; [exact NP|]. exists k. split; [lia|]. split; [exact Kd|lia].
  - exact (IH k Kd NP Hk).
  - destruct (read_app_safe _ _ _ _ _ _ _ Kd NP Hk E) as [A|(_ & La & NP' & k1 & K1 & Kd1 & Le)]; [left; exact A|].
    cbn [with_buf c_reader] in IH. assert (Hk1 : k1 + left r' + 1 < 2 ^ 64) by (clear - Hk Le; lia). destruct (IH k1 Kd1 NP' Hk1) as [A|(X & La2 & NP2 & k2 & K2 & Kd2 & Le2)].
    + left. eapply alien_later; eauto.
    + right. split; [exact X|]. split; [eapply later_trans; eauto|]. split; [exact NP2|]. exists k2. split; [clear - K1 K2; lia|]. split; [exact Kd2|clear - Le Le2; lia].
  - destruct (read_app_safe _ _ _ _ _ _ _ Kd NP Hk E) as [A|(_ & La & NP' & k1 & K1 & Kd1 & Le)]; [left; exact A|].
    right. split; [exact I|]. eauto 10.
  - destruct (read_app_safe _ _ _ _ _ _ _ Kd NP Hk E) as [A|(X & _)]; [left; exact A|destruct X].
  - destruct (read_app_safe _ _ _ _ _ _ _ Kd NP Hk E) as [A|(X & _)]; [left; exact A|destruct X].
Qed.
Theorem reads_safe m key iv : forall sizes c k, keyed m (c_reader c) key iv k -> no_pending (c_reader c) -> k + left (c_reader c) + 1 < 2 ^ 64 ->
  alien (r_src (c_reader c)) key iv k \/ Forall fine (fst (client_reads m sizes c)).
Proof.
  induction sizes as [|n sizes IH]; intros c k Kd NP Hk; [right; constructor|]. cbn [client_reads].
  destruct (client_read m n c) as [x c'] eqn:E. apply read_rd in E.
  destruct (rd_safe _ _ _ _ _ _ _ _ E k Kd NP Hk) as [A|(X & La & NP' & k1 & K1 & Kd1 & Le)]; [left; exact A|].
  destruct (IH c' k1 Kd1 NP' ltac:(lia)) as [A|F]; [left; eapply alien_later; eauto|].
  right. destruct x; try destruct X; destruct (client_reads m sizes c') as [xs c'']; (constructor; [exact I|exact F]).
Qed.

(** ** During the handshake *)
Lemma absorbs_room m r recs r' : absorbs m r recs r' -> 0 <= r_count r -> r_count r + left r < 2 ^ 64 ->
  later r r' /\ r_count r <= r_count r' /\ r_count r' + left r' <= r_count r + left r.
Proof.
  induction 1 as [r|r r1 recs r2 Q A IH|r rec r1 recs r2 E A IH]; intros K0 Hk; [split; [apply later_refl|lia]|..].
  - destruct Q as (Q1 & Q2 & Q3 & Q4). pose proof (later_left r r1 Q4) as L. rewrite Q2 in IH.
    destruct (IH K0 ltac:(lia)) as (IH1 & IH2). split; [eapply later_trans; eauto|lia].
  - apply read_record_inv in E as (t & maj & min & frag & f & c & _ & _ & _ & Ab & Sz & _ & Ec & Er).
    assert (P : 0 <= left r) by (unfold left; lia). assert (L5 : left r1 + 5 <= left r) by (unfold left; lia).
    assert (P1 : 0 <= left r1) by (unfold left; lia).
    assert (C1 : r_count r1 = r_count r + 1).
    { rewrite Er. cbn [set_count r_count]. rewrite ck_ok in Ec by lia. apply Ok_inj in Ec. symmetry. exact Ec. }
    rewrite C1 in IH. destruct (IH ltac:(lia) ltac:(lia)) as (IH1 & IH2).
    split; [eapply later_trans; [|exact IH1]; exists (wire t maj min frag); exact Ab|lia].
Qed.
Lemma handle_fine rec r : fst (handle_record rec r) <> Panic.
Proof. pose proof (handle_value rec r) as V. destruct (handle_record rec r) as [[]]; cbn in *; try discriminate; destruct V. Qed.
(** a panic while waiting for a message is a panic while reading a record *)
Lemma pull_panics m : forall r r', pull m r = (Panic, r') -> exists recs r1, absorbs m r recs r1 /\ fst (read_record m r1) = Panic.
Proof.
  apply (pull_ind m (fun r => forall r', pull m r = (Panic, r') -> exists recs r1, absorbs m r recs r1 /\ fst (read_record m r1) = Panic)).
  intros r IH r'. rewrite pull_eq. unfold mbind. destruct (read_record m r) as [x r1] eqn:E. destruct x as [rec|e| |]; try discriminate.
  - destruct (handle_record rec r1) as [y r2] eqn:E2. pose proof (handle_fine rec r1) as N. rewrite E2 in N. cbn in N.
    destruct y as [[msg|]| | |]; try discriminate; [|congruence].
    intros P. destruct (IH rec r1 r2 eq_refl E2 r' P) as (recs & r3 & A & Q). exists (rec :: recs), r3. split; [|exact Q].
    eapply Ab_rec; [exact E|]. eapply Ab_quiet; [eapply quiet_handle; exact E2|exact A].
  - intros _. exists [], r. split; [constructor|]. rewrite E. reflexivity.
Qed.
Lemma message_panics m r r' : read_message m r = (Panic, r') -> exists recs r1, absorbs m r recs r1 /\ fst (read_record m r1) = Panic.
Proof.
  rewrite read_message_eq. pose proof (get_message_value (r_buf r)) as V.
  destruct (get_message (r_buf r)) as [[[h|]| | |] b]; cbn in V; try discriminate; try destruct V.
  intros P. apply pull_panics in P as (recs & r1 & A & Q). exists recs, r1. split; [|exact Q]. eapply Ab_quiet; [apply quiet_set_buf|exact A].
Qed.
Lemma handshake_read_panics m r r' : read_handshake m r = (Panic, r') -> exists recs r1, absorbs m r recs r1 /\ fst (read_record m r1) = Panic.
Proof.
  unfold read_handshake, mbind. destruct (read_message m r) as [[[| | |]| | |] r1] eqn:E; try discriminate. intros _. eapply message_panics; eauto.
Qed.
Lemma ccs_read_panics m r r' : read_change_cipher_spec m r = (Panic, r') -> exists recs r1, absorbs m r recs r1 /\ fst (read_record m r1) = Panic.
Proof.
  unfold read_change_cipher_spec, mbind. destruct (read_message m r) as [[[| | |]| | |] r1] eqn:E; try discriminate. intros _. eapply message_panics; eauto.
Qed.
Lemma clear_calm m r recs r1 : r_dec r = None -> 0 <= r_count r -> r_count r + left r + 1 < 2 ^ 64 -> absorbs m r recs r1 -> fst (read_record m r1) <> Panic.
Proof.
  intros D K0 Hk A. destruct (absorbs_room _ _ _ _ A K0 ltac:(lia)) as (_ & C1 & C2). destruct (absorbs_dec _ _ _ _ A) as [D1 _].
  assert (P1 : 0 <= left r1) by (unfold left; lia).
  pose proof (clear_no_panic m r1 ltac:(congruence) ltac:(lia) ltac:(lia)) as V. intros E. rewrite E in V. exact V.
Qed.
Lemma keyed_panics m r key iv k recs r1 : keyed m r key iv k -> k + left r + 1 < 2 ^ 64 -> absorbs m r recs r1 -> fst (read_record m r1) = Panic ->
  exists k' t p, k <= k' /\ sealed_in (r_src r) key iv k' t p /\ 16384 < zlen p.
Proof.
  intros (D & V & C & Lk & Li & K0) Hk A E. destruct (absorbs_room _ _ _ _ A ltac:(lia) ltac:(lia)) as (La & C1 & C2). destruct (absorbs_dec _ _ _ _ A) as [D1 V1].
  assert (P1 : 0 <= left r1) by (unfold left; lia).
  assert (Kd : keyed m r1 key iv (r_count r1)) by (unfold keyed; rewrite D1, V1; repeat (split; [assumption || reflexivity|]); lia).
  destruct (read_record m r1) as [x r2] eqn:R. cbn [fst] in E. subst x.
  apply (keyed_record _ _ _ _ _ _ _ Kd ltac:(lia)) in R as (_ & _ & _ & [(e & N & _)|(t & p & SI & _ & [(_ & ? & ? & N & _)|(Lp & _)])]); try discriminate.
  exists (r_count r1), t, p. split; [lia|]. split; [eapply later_sealed; eauto|exact Lp].
Qed.

Lemma read_handshake_room m r x r' : read_handshake m r = (x, r') -> 0 <= r_count r -> r_count r + left r < 2 ^ 64 ->
  later r r' /\ r_count r <= r_count r' /\ r_count r' + left r' <= r_count r + left r.
Proof.
  unfold read_handshake, mbind. intros E. destruct (read_message_absorbs m r) as (recs & A & _). destruct (read_message m r) as [y r1]. cbn [snd] in A.
  assert (r' = r1) by (destruct y as [[]| | |]; apply pair_equal_spec in E as [_ <-]; reflexivity). subst r1. eapply absorbs_room; exact A.
Qed.
Lemma read_ccs_room m r x r' : read_change_cipher_spec m r = (x, r') -> 0 <= r_count r -> r_count r + left r < 2 ^ 64 ->
  later r r' /\ r_count r <= r_count r' /\ r_count r' + left r' <= r_count r + left r.
Proof.
  unfold read_change_cipher_spec, mbind. intros E. destruct (read_message_absorbs m r) as (recs & A & _). destruct (read_message m r) as [y r1]. cbn [snd] in A.
  assert (r' = r1) by (destruct y as [[]| | |]; apply pair_equal_spec in E as [_ <-]; reflexivity). subst r1. eapply absorbs_room; exact A.
Qed.
(** a reader in the clear with room for everything still to come *)
Definition roomy (r : reader) : Prop := r_dec r = None /\ 0 <= r_count r /\ r_count r + left r + 1 < 2 ^ 64.
Lemma roomy_calm m r r' : roomy r -> read_handshake m r = (Panic, r') -> False.
Proof. intros (D & K & H) E. apply handshake_read_panics in E as (recs & r1 & A & P). exact (clear_calm _ _ _ _ D K H A P). Qed.
Lemma roomy_next m r x r' : roomy r -> read_handshake m r = (x, r') -> roomy r' /\ later r r'.
Proof.
  intros (D & K & H) E. destruct (read_handshake_room _ _ _ _ E K ltac:(lia)) as (L & C1 & C2). apply read_handshake_keys in E as [D' _].
  split; [|exact L]. split; [congruence|]. lia.
Qed.
Lemma server_panics m s w g b c : roomy (reader_new s) -> ph_server m (Client (reader_new s) w g b) = (Panic, c) ->
  exists skx g', exchanged m s skx /\ compute_keys m skx g = (Panic, g').
Proof.
  intros Ro E. unfold ph_server in E. unfold mbind at 1 in E. rewrite expect_run in E.
  destruct (read_handshake m (reader_new s)) as [[h| | |] r1] eqn:E1; try discriminate E; [|destruct (roomy_calm _ _ _ Ro E1)].
  destruct (pick_server_hello h) as [sh|] eqn:P1; [|discriminate E]. destruct h; try discriminate P1. injection P1 as ->.
  destruct (roomy_next _ _ _ _ Ro E1) as [Ro1 _].
  unfold mbind at 1, mlift in E. 
  destruct (check_server_hello sh) as [[]| | |] eqn:Ck; try discriminate E;
    [|exfalso; clear - Ck; unfold check_server_hello in Ck; repeat (destruct (negb _); [discriminate|]); discriminate].
  unfold mbind at 1 in E. rewrite expect_run in E.
  destruct (read_handshake m r1) as [[h| | |] r2] eqn:E2; try discriminate E; [|destruct (roomy_calm _ _ _ Ro1 E2)].
  destruct (pick_certificate h) as [certs|] eqn:P2; [|discriminate E]. destruct h; try discriminate P2. injection P2 as ->.
  destruct (roomy_next _ _ _ _ Ro1 E2) as [Ro2 _].
  unfold mbind at 1 in E. rewrite expect_run in E.
  destruct (read_handshake m r2) as [[h| | |] r3] eqn:E3; try discriminate E; [|destruct (roomy_calm _ _ _ Ro2 E3)].
  destruct (pick_server_key_exchange h) as [skx|] eqn:P3; [|discriminate E]. destruct h; try discriminate P3. injection P3 as ->.
  destruct (roomy_next _ _ _ _ Ro2 E3) as [Ro3 _].
  unfold mbind at 1, on_rng in E. cbn [c_rng c_reader c_writer c_buf] in E.
  destruct (compute_keys m skx g) as [[[pub pms]| | |] g'] eqn:K; try discriminate E.
  - unfold mbind at 1 in E. rewrite expect_run in E. exfalso.
    destruct (read_handshake m r3) as [[h| | |] r4] eqn:E4; try discriminate E; [|destruct (roomy_calm _ _ _ Ro3 E4)].
    destruct h; discriminate E.
  - exists skx, g'. split; [|exact K]. exists sh, certs, r1, r2, r3. auto.
Qed.
Lemma accept_panics m r w g b ss c : good_session ss -> roomy r -> r_iv r = Some (iv_server (s_keys ss)) ->
  ph_accept m (s_master ss) (k_server (s_keys ss)) (concat (map e_handshake (s_msgs ss))) (s_client_fin ss) (Client r w g b) = (Panic, c) ->
  exists k t p, 0 <= k /\ sealed_in (r_src r) (k_server (s_keys ss)) (iv_server (s_keys ss)) k t p /\ 16384 < zlen p.
Proof.
  intros G Ro V E. pose proof Ro as (D & K0 & Hk).
  destruct (accept_cases m r w g b ss G D) as [(r' & _ & X)|[(v & r' & _ & _ & X)|(x & r' & X & _ & NA)]]; cbv zeta in X; rewrite E in X;
    apply pair_equal_spec in X as [X _]; try discriminate X. clear x X.
  unfold ph_accept in E. unfold mbind at 1, on_reader at 1 in E. cbn [c_rng c_reader c_writer c_buf] in E.
  destruct (read_change_cipher_spec m r) as [[[]| | |] r1] eqn:R1; try discriminate E.
  2:{ apply ccs_read_panics in R1 as (recs & r1' & A & P). destruct (clear_calm _ _ _ _ D K0 Hk A P). }
  unfold mbind at 1, on_reader at 1, r_set_decryptor in E. cbn [c_rng c_reader c_writer c_buf] in E.
  destruct (read_ccs_keys _ _ _ _ R1) as [D1 V1]. rewrite D1, D in E.
  change (Reader (r_src r1) _ 0 (r_buf r1) (r_iv r1)) with (decrypting m r1 (s_keys ss)) in E.
  destruct (read_ccs_room _ _ _ _ R1 K0 ltac:(lia)) as (L1 & C1 & C2).
  unfold mbind at 1 in E. rewrite expect_run in E.
  destruct (read_handshake m (decrypting m r1 (s_keys ss))) as [[h| | |] r2] eqn:R2; try discriminate E.
  - destruct (pick_finished h) as [v|] eqn:P; [|discriminate E]. destruct h; try discriminate P. injection P as ->.
    exfalso. eapply NA. exists r1. eauto.
  - apply handshake_read_panics in R2 as (recs & r3 & A & P).
    destruct (key_block_lengths (s_master ss) (s_cr ss) (sh_random (s_sh ss))) as (_ & K2 & _ & K4). fold (s_keys ss) in K2, K4.
    assert (Kd : keyed m (decrypting m r1 (s_keys ss)) (k_server (s_keys ss)) (iv_server (s_keys ss)) 0).
    { unfold keyed, decrypting. cbn [r_dec r_iv r_count]. rewrite V1, V. repeat (split; [assumption || reflexivity|]). lia. }
    destruct (keyed_panics _ _ _ _ _ _ _ Kd ltac:(change (left (decrypting m r1 (s_keys ss))) with (left r1); lia) A P) as (k & t & p & Hk' & SI & Lp).
    exists k, t, p. split; [exact Hk'|]. split; [|exact Lp]. apply (later_sealed r (decrypting m r1 (s_keys ss))); [exact L1|exact SI].
Qed.

(** ** Every way [TlsClient::new] can panic *)
Theorem new_panics m s p g c : zlen (all_bytes s) + 1 < 2 ^ 64 -> client_new m s p g = (Panic, c) ->
  (length g < 32)%nat \/
  (exists skx g', exchanged m s skx /\ compute_keys m skx (skipn 32 g) = (Panic, g')) \/
  (exists ss k t b, reached m s g (Complete ss) /\ 0 <= k /\
     sealed_in s (k_server (s_keys ss)) (iv_server (s_keys ss)) k t b /\ 16384 < zlen b).
Proof.
  intros Room E.
  assert (E' : exists c1, client_handshake m (client_init s p g) = (Panic, c1)).
  { unfold client_new, or_alert in E. destruct (client_handshake m (client_init s p g)) as [y c1] eqn:H. apply handshake_cases in H as (_ & H).
    destruct y as [u|k| |]; try discriminate E; [|eauto]. exfalso.
    assert (Dk : k = IoFailure \/ k <> IoFailure) by (destruct k; auto; right; discriminate). destruct Dk as [-> | Dk].
    { unfold send_tls_alert in E. cbv [mret] in E. discriminate E. }
    destruct H as [(ss & H & _)|[(st & _ & _ & W & _)|(st & H & _)]]; [discriminate H| |congruence].
    destruct (alert_run m st p (c_writer c1) k W) as (y & w' & Ew & S).
    replace (send_tls_alert m k c1) with
        (match on_writer (write_alert m (Alert AL_fatal (alert_from_err k))) c1 with
         | (Ok _, c') => (Ok k, c') | (Err k', c') => (Ok k', c') | (Panic, c') => (Panic, c') | (Diverge, c') => (Diverge, c') end) in E
        by (destruct k; try reflexivity; congruence).
    unfold on_writer in E. rewrite Ew in E. destruct (sent_outcome _ _ _ _ _ S) as [-> | ->]; discriminate E. }
  clear E. destruct E' as (c1 & E). rewrite phases in E. unfold client_init in E. unfold mbind at 1 in E.
  assert (Ro : roomy (reader_new s)).
  { unfold roomy, left. cbn [reader_new r_dec r_count r_src]. rewrite size_all. unfold zlen in Room. split; [reflexivity|]. lia. }
  destruct (hello_run m (reader_new s) (writer_new p) g [] eq_refl eq_refl) as [[L R]|(L & x1 & w1 & S1 & R)]; rewrite R in E; clear R; [left; exact L|right].
  destruct (sent_outcome _ _ _ _ _ S1) as [-> | ->]; [|discriminate E].
  set (cr := firstn 32 g) in *. unfold mbind at 1 in E. cbv beta iota in E.
  pose proof S1 as ([[_ O1]|(N & _)] & A1 & B1 & H1 & C1); [|discriminate]. specialize (C1 eq_refl).
  cbn [w_enc w_iv w_count w_out writer_new app Z.add] in A1, B1, C1, O1.
  destruct (server_cases m (reader_new s) w1 (skipn 32 g) [] I) as [(sh & certs & skx & pub & pms & r' & g' & R & Fl & Ck & K)|(x2 & r' & g' & R & Fx)];
    rewrite R in E.
  2:{ left. assert (X : ph_server m (Client (reader_new s) w1 (skipn 32 g) []) = (Panic, Client r' w1 g' [])).
      { rewrite R. destruct x2; try destruct Fx; [discriminate E|reflexivity]. }
      eapply server_panics; [exact Ro|exact X]. }
  right. clear R. cbv beta iota in E. apply check_inv in Ck as (V & Su & Co).
  set (ss := Session cr sh certs skx pub pms).
  assert (RC : reached m s g (Complete ss)).
  { split; [exact L|]. split; [reflexivity|]. split; [exists r'; exact Fl|]. repeat split; auto. exists g'. exact K. }
  pose proof (session_good _ _ _ _ RC) as G. pose proof G as (Lc & Ls & Lp & Lk & _).
  unfold mbind at 1 in E. change pub with (s_cke ss) in E.
  destruct (exchange_run m r' w1 g' [] ss Lk A1 ltac:(lia) ltac:(lia)) as (x2 & w2 & S2 & R). rewrite R in E; clear R.
  destruct (sent_outcome _ _ _ _ _ S2) as [-> | ->]; [|discriminate E].
  pose proof S2 as ([[_ O2]|(N & _)] & A2 & B2 & H2 & C2); [|discriminate]. specialize (C2 eq_refl). rewrite A1 in A2. rewrite B1 in B2.
  unfold mbind at 1 in E. destruct (flight_keys _ _ _ _ _ _ Fl) as [D' I']. cbn [reader_new r_dec r_iv] in D', I'.
  change cr with (s_cr ss) in E. change sh with (s_sh ss) in E. change pms with (s_pms ss) in E.
  rewrite (keys_run m r' w2 g' [] ss Lc Ls Lp A2 B2 I') in E. cbv beta iota in E.
  unfold mbind at 1 in E. change certs with (s_certs ss) in E. change skx with (s_ske ss) in E.
  destruct (finished_run m (ived_reader r' (s_keys ss)) (keyed_writer m w2 (s_keys ss)) g' [] ss G eq_refl eq_refl eq_refl) as (x3 & w3 & S3 & R).
  rewrite R in E; clear R.
  destruct (sent_outcome _ _ _ _ _ S3) as [-> | ->]; [|discriminate E].
  assert (Rr : roomy (ived_reader r' (s_keys ss)) /\ later (reader_new s) r').
  { destruct Fl as (r1 & r2 & r3 & F1 & F2 & F3 & F4). destruct (roomy_next _ _ _ _ Ro F1) as [Ro1 L1]. destruct (roomy_next _ _ _ _ Ro1 F2) as [Ro2 L2].
    destruct (roomy_next _ _ _ _ Ro2 F3) as [Ro3 L3]. destruct (roomy_next _ _ _ _ Ro3 F4) as [Ro4 L4].
    split; [exact Ro4|]. eapply later_trans; [exact L1|]. eapply later_trans; [exact L2|]. eapply later_trans; eauto. }
  destruct Rr as [Rr La].
  destruct (accept_panics m _ _ _ _ _ _ G Rr eq_refl E) as (k & t & b & Hk & SI & Lb).
  exists ss, k, t, b. split; [exact RC|]. split; [exact Hk|]. split; [|exact Lb]. exact (later_sealed (reader_new s) r' _ _ _ _ _ La SI).
Qed.
(** in a release build with a working random source: only the holder of the server's key can do it *)
Corollary release_panics s p g c : zlen (all_bytes s) + 1 < 2 ^ 64 -> (32 <= length g)%nat -> enough_randomness (skipn 32 g) ->
  client_new Release s p g = (Panic, c) ->
  exists ss k t b, reached Release s g (Complete ss) /\ 0 <= k /\
     sealed_in s (k_server (s_keys ss)) (iv_server (s_keys ss)) k t b /\ 16384 < zlen b.
Proof.
  intros Room L R E. destruct (new_panics _ _ _ _ _ Room E) as [N|[(skx & g' & _ & K)|H]]; [lia| |exact H].
  pose proof (keys_release skx _ R) as T. rewrite K in T. destruct T.
Qed.
