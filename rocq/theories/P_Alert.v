(** Proofs about src/client.rs: alerts received during the handshake, and what each error means. *)
From Verif Require Import Spec_Client4 P_Util P_Codec P_RecordW P_RecordR P_Record P_Record2 P_Aead P_Decode P_Ecdhe P_Client P_Client2 P_App P_App2 P_Panic P_Client3 P_Client4 P_Fault P_Pending P_Client6.
From Coq Require Import ZifyBool ZifyNat ZifyN.
Local Open Scope list_scope.
Local Open Scope Z_scope.
#[local] Opaque SHA256 HMAC aead_seal aead_decrypt aead_encrypt compute_keys PRF nmul.

(** ** Errors of the record layer *)
Definition usable (m : mode) (r : reader) : Prop := r_dec r = None \/ exists key iv k, keyed m r key iv k /\ k < 2 ^ 64.
Definition record_kind (m : mode) (r : reader) (k : errkind) : Prop :=
  k = IoFailure \/ k = UnexpectedMessage \/ k = RecordOverflow \/ k = BadRecordMac /\ r_dec r <> None.
Lemma r_read_kinds n r x r' : r_read n r = (x, r') -> x = Err IoFailure \/ exists g, x = Ok g.
Proof. intros E. apply r_read_inv in E as (_ & _ & _ & _ & T). exact T. Qed.
Lemma ck_range m z c : ck m 64 z = Ok c -> 0 <= c < 2 ^ 64.
Proof.
  unfold ck. destruct ((0 <=? z) && (z <? 2 ^ 64)) eqn:E.
  - intros H. injection H as <-. apply andb_prop in E as [E1 E2]. lia.
  - destruct m; [discriminate|]. intros H. apply Ok_inj in H as <-. apply Z.mod_pos_bound. reflexivity.
Qed.
Definition front_kind (k : errkind) : Prop := k = IoFailure \/ k = UnexpectedMessage \/ k = RecordOverflow.
Lemma record_front m r : (exists k r', read_record m r = (Err k, r') /\ front_kind k) \/
  (exists t maj min frag r1, read_record m r = finish m t maj min frag r1 /\ r1 = set_src r (r_src r1) /\ zlen frag <= ENC_RECORD_MAX_LEN).
Proof.
  destruct (read_record_cases m r) as [(k & r' & E & _)|(t & maj & min & frag & r1 & E & S & L & _)]; [|right; eauto 10].
  destruct (read_record m r) as [x r0] eqn:H. apply pair_equal_spec in E as [-> ->]. unfold read_record in H.
  assert (IO : forall a, (Err IoFailure : res record, a) = (Err k, r') -> front_kind k) by (intros a X; apply pair_equal_spec in X as [X _]; injection X as <-; left; reflexivity).
  unfold mbind at 1 in H. destruct (r_read 1 r) as [x1 r1] eqn:E1. pose proof (r_read_kinds _ _ _ _ E1) as [->|(g1 & ->)]; [left; exists k, r'; split; [reflexivity|exact (IO _ H)]|].
  destruct (from_code content_type_code content_type_all (be_val g1)) as [t|].
  2:{ left. exists k, r'. split; [reflexivity|]. apply pair_equal_spec in H as [X _]. injection X as <-. right. left. reflexivity. }
  unfold mbind at 1 in H. destruct (r_read 1 r1) as [x2 r2] eqn:E2. pose proof (r_read_kinds _ _ _ _ E2) as [->|(g2 & ->)]; [left; exists k, r'; split; [reflexivity|exact (IO _ H)]|].
  unfold mbind at 1 in H. destruct (r_read 1 r2) as [x3 r3] eqn:E3. pose proof (r_read_kinds _ _ _ _ E3) as [->|(g3 & ->)]; [left; exists k, r'; split; [reflexivity|exact (IO _ H)]|].
  unfold mbind at 1 in H. destruct (r_read 2 r3) as [x4 r4] eqn:E4. pose proof (r_read_kinds _ _ _ _ E4) as [->|(g4 & ->)]; [left; exists k, r'; split; [reflexivity|exact (IO _ H)]|].
  destruct (Z.ltb_spec ENC_RECORD_MAX_LEN (be_val g4)) as [Lt|Lt].
  { left. exists k, r'. split; [reflexivity|]. apply pair_equal_spec in H as [X _]. injection X as <-. right. right. reflexivity. }
  unfold mbind at 1 in H. destruct (r_read (Z.to_nat (be_val g4)) r4) as [x5 r5] eqn:E5. pose proof (r_read_kinds _ _ _ _ E5) as [->|(g5 & ->)]; [left; exists k, r'; split; [reflexivity|exact (IO _ H)]|].
  right. exists t, (hd x00 g2), (hd x00 g3), g5, r5. split; [rewrite <- H; reflexivity|].
  apply r_read_inv in E1 as (S1 & _), E2 as (S2 & _), E3 as (S3 & _), E4 as (S4 & _), E5 as (S5 & _ & _ & N5 & _).
  split; [rewrite S5, S4, S3, S2, S1; reflexivity|]. destruct (N5 g5 eq_refl) as [N5' _]. unfold zlen. rewrite N5'. pose proof (be_val_range g4). lia.
Qed.
Lemma record_kinds m r x r' : usable m r -> read_record m r = (x, r') ->
  (forall k, x = Err k -> record_kind m r k) /\ (forall rec, x = Ok rec -> usable m r').
Proof.
  intros U E. destruct (record_front m r) as [(k & r1 & E1 & F)|(t & maj & min & frag & r1 & E1 & S & L)]; rewrite E in E1.
  { apply pair_equal_spec in E1 as [-> ->]. split; [|discriminate]. intros k' X. injection X as <-. unfold record_kind. destruct F as [F|[F|F]]; auto. }
  unfold finish, mbind in E1.
  assert (Un : unprotect t maj min frag r1 = unprotect t maj min frag r) by (rewrite S; reflexivity). rewrite Un in E1.
  assert (B : r_count r1 = r_count r) by (rewrite S; reflexivity).
  assert (Or : forall k, unprotect t maj min frag r = Err k -> record_kind m r k).
  { intros k X. unfold unprotect in X. destruct U as [D|(key & iv & n & (D & V & C & Lk & Li & K0) & Kn)]; rewrite D in X.
    - unfold record_new in X. destruct (_ <? _) eqn:Q in X; [injection X as <-; unfold record_kind; auto|]. try rewrite Q in X. try destruct (_ <? _) in X; discriminate X.
    - cbn [new_decryptor dc_mac_len dc_decrypt] in X.
      assert (G : BadRecordMac = k -> record_kind m r k) by (intros <-; right; right; right; split; [reflexivity|rewrite D; discriminate]).
      destruct (_ <? 16) eqn:Q; [injection X as X; exact (G X)|].
      rewrite V, C, seq_nonce_rfc in X by (assumption || lia).
      assert (Fi : fits frag) by (apply fits_record; unfold ENC_RECORD_MAX_LEN in L; lia).
      assert (Hn : length (rfc_nonce iv n) = 12%nat) by (apply rfc_nonce_length; [exact Li|lia]).
      destruct (open_outcomes m key (rfc_nonce iv n) (seq_ad n t maj min (zlen frag - 16)) frag Lk Hn Fi) as [(p & O)|O]; rewrite O in X; cbn [rbind] in X.
      + destruct (_ <? _) in X; [discriminate X|]. unfold record_new in X. try destruct (_ <? _) in X; discriminate X.
      + injection X as X. exact (G X). }
  destruct (unprotect t maj min frag r) as [rec|k'| |].
  - unfold r_bump in E1. rewrite B in E1. destruct (ck m 64 (r_count r + 1)) as [c|k'| |] eqn:Ec; apply pair_equal_spec in E1 as [-> ->]; (split; [try discriminate|try discriminate]).
    + intros rec' _. apply ck_range in Ec. destruct U as [D|(key & iv & n & (D & V & C & Lk & Li & K0) & Kn)].
      * left. cbn [r_dec]. rewrite S. exact D.
      * right. exists key, iv, c. unfold keyed. cbn [r_dec r_iv r_count]. rewrite S. cbn [set_src r_dec r_iv]. split; [|lia]. repeat (split; [assumption || reflexivity|]). lia.
    + exfalso. unfold ck in Ec. destruct (_ && _); [discriminate|destruct m; discriminate].
  - apply pair_equal_spec in E1 as [-> ->]. split; [|discriminate]. intros k X. injection X as ->. apply Or. reflexivity.
  - apply pair_equal_spec in E1 as [-> ->]. split; discriminate.
  - apply pair_equal_spec in E1 as [-> ->]. split; discriminate.
Qed.

(** ** Errors while waiting for a message *)
Definition message_kind (m : mode) (r : reader) (k : errkind) : Prop :=
  k = IoFailure \/ k = DecodeError \/ k = UnexpectedMessage \/ k = InternalError \/ k = RecordOverflow \/ k = BadRecordMac /\ r_dec r <> None.
Lemma handle_kinds rec r k r' : handle_record rec r = (Err k, r') -> k = IoFailure \/ k = DecodeError \/ k = UnexpectedMessage \/ k = InternalError.
Proof.
  assert (U : (Err UnexpectedMessage : res (option message), r) = (Err k, r') -> k = IoFailure \/ k = DecodeError \/ k = UnexpectedMessage \/ k = InternalError)
    by (intros E; apply pair_equal_spec in E as [E _]; injection E as <-; auto).
  unfold handle_record. destruct (rc_type rec).
  - destruct (rc_fragment rec) as [|b [|]]; [exact U| |exact U]. destruct (b2z b =? 1); [discriminate|exact U].
  - destruct (rc_fragment rec) as [|l [|d ?]]; [exact U|exact U|].
    destruct (from_code alert_level_code alert_level_all (b2z l)), (from_code alert_desc_code alert_desc_all (b2z d)); try exact U. discriminate.
  - destruct (rc_fragment rec) as [|b f]; [exact U|]. unfold mbind, r_add_record, r_get_message, mret. cbn [r_buf].
    destruct (get_message _) as [[o|e| |] b'] eqn:E; intros H; try discriminate H. apply pair_equal_spec in H as [H _]. injection H as ->.
    eapply get_message_kinds. rewrite E. reflexivity.
  - discriminate.
Qed.
Lemma usable_same m r r' : r_dec r' = r_dec r -> r_iv r' = r_iv r -> r_count r' = r_count r -> usable m r -> usable m r'.
Proof. unfold usable, keyed. intros -> -> ->. auto. Qed.
Lemma pull_kinds m : forall r, usable m r -> forall k r', pull m r = (Err k, r') -> message_kind m r k.
Proof.
  apply (pull_ind m (fun r => usable m r -> forall k r', pull m r = (Err k, r') -> message_kind m r k)). intros r IH U k r' E. rewrite pull_eq in E. unfold mbind in E.
  destruct (read_record m r) as [x r1] eqn:R. destruct (record_kinds m r x r1 U R) as [K1 K2]. destruct (read_record_dec m r x r1 R) as [D _].
  destruct x as [rec|e| |]; try discriminate E.
  - destruct (handle_record rec r1) as [y r2] eqn:H. pose proof (handle_src _ _ _ _ H) as (_ & D2 & C2 & V2).
    destruct y as [[msg|]|e| |]; try discriminate E.
    + assert (X : message_kind m r2 k) by (eapply (IH rec r1 r2 eq_refl H); [eapply usable_same; [exact D2|exact V2|exact C2|]; apply (K2 rec); reflexivity|exact E]).
      unfold message_kind in *. rewrite D2, D in X. exact X.
    + apply pair_equal_spec in E as [E _]. injection E as ->. apply handle_kinds in H. unfold message_kind. tauto.
  - apply pair_equal_spec in E as [E _]. injection E as ->. specialize (K1 k eq_refl). unfold record_kind in K1. unfold message_kind. tauto.
Qed.
Lemma read_message_kinds m r k r' : usable m r -> read_message m r = (Err k, r') -> message_kind m r k.
Proof.
  intros U. rewrite read_message_eq. destruct (get_message (r_buf r)) as [[[h|]|e| |] b] eqn:G; intros E; try discriminate E.
  - eapply pull_kinds in E; [exact E|]. eapply usable_same; [| | |exact U]; reflexivity.
  - apply pair_equal_spec in E as [E _]. injection E as ->. assert (X : fst (get_message (r_buf r)) = Err k) by (rewrite G; reflexivity). apply get_message_kinds in X. unfold message_kind. tauto.
Qed.

(** ** During the handshake *)
Lemma finished_reader m s g ss r r1 : reached m s g (Complete ss) -> server_flight m (reader_new s) (s_sh ss) (s_certs ss) (s_ske ss) r ->
  read_change_cipher_spec m (ived_reader r (s_keys ss)) = (Ok tt, r1) ->
  keyed m (decrypting m r1 (s_keys ss)) (k_server (s_keys ss)) (iv_server (s_keys ss)) 0.
Proof.
  intros R F C. apply read_ccs_keys in C as [_ V]. cbn [ived_reader r_iv] in V.
  destruct (key_block_lengths (s_master ss) (s_cr ss) (sh_random (s_sh ss))) as (_ & L1 & _ & L2).
  unfold keyed. cbn [decrypting r_dec r_iv r_count]. rewrite V. repeat (split; [reflexivity|]). split; [exact L1|]. split; [exact L2|lia].
Qed.
Lemma awaits_usable m s g st r : awaits m s g st r -> usable m r /\ match st with Complete _ => r_dec r <> None | _ => r_dec r = None end.
Proof.
  intros [|sh r1 E1 O|sh certs r1 r2 E1 O E2|sh certs skx r1 r2 r3 kp g' E1 O E2 E3 K|ss r0 r1 R F C].
  - split; [left|]; reflexivity.
  - apply read_handshake_keys in E1 as [D1 _]. split; [left|]; exact D1.
  - apply read_handshake_keys in E1 as [D1 _], E2 as [D2 _]. rewrite D1 in D2. split; [left|]; exact D2.
  - apply read_handshake_keys in E1 as [D1 _], E2 as [D2 _], E3 as [D3 _]. rewrite D2, D1 in D3. split; [left|]; exact D3.
  - pose proof (finished_reader _ _ _ _ _ _ R F C) as Kd. split; [right|cbn; discriminate]. eexists _, _, 0. split; [exact Kd|reflexivity].
Qed.
Lemma awaits_ccs_usable m s g ss r : awaits_ccs m s g ss r -> usable m r /\ r_dec r = None.
Proof.
  intros (r0 & R & F & ->). pose proof (flight_keys _ _ _ _ _ _ F) as [D _]. cbn [ived_reader r_dec]. split; [left|]; exact D.
Qed.
Lemma handshake_alert m r r' : usable m r ->
  (read_handshake m r = (Err AlertReceived, r') <-> exists a, read_message m r = (Ok (AlertMessage a), r')).
Proof.
  intros U. unfold read_handshake, mbind. destruct (read_message m r) as [[msg|k| |] r1] eqn:E.
  - split.
    + destruct msg; cbv [mret mfail]; intros H; apply pair_equal_spec in H as [H ->]; try discriminate H. eauto.
    + intros (a & H). apply pair_equal_spec in H as [H ->]. injection H as ->. reflexivity.
  - split.
    + intros H. apply pair_equal_spec in H as [H _]. injection H as ->. apply read_message_kinds in E; [|exact U]. unfold message_kind in E. intuition discriminate.
    + intros (a & H). discriminate H.
  - split; [discriminate|]. intros (a & H). discriminate H.
  - split; [discriminate|]. intros (a & H). discriminate H.
Qed.
Lemma awaits_fault m s g st r k r' : awaits m s g st r -> read_handshake m r = (Err k, r') -> fault m s g st k.
Proof.
  intros A E. assert (Rf : forall P, refused m r P k) by (intros P; left; eauto). destruct A as [|sh r1 E1 O|sh certs r1 r2 E1 O E2|sh certs skx r1 r2 r3 kp g' E1 O E2 E3 K|ss r0 r1 R F C].
  - apply F_first, FF_hello, Rf.
  - eapply F_first, FF_certificate; eauto.
  - eapply F_first, FF_exchange; eauto.
  - eapply F_first, FF_done; eauto.
  - eapply F_second; [exact R|exact F|]. eapply FA_finished; eauto.
Qed.
(** any alert where a handshake message is due *)
Theorem any_alert m s p g st r a r' : healthy (writer_new p) -> (32 <= length g)%nat -> awaits m s g st r -> read_message m r = (Ok (AlertMessage a), r') ->
  exists c, client_new m s p g = (Err AlertReceived, c) /\ w_out (c_writer c) = stage_out st ++ alert_out st AlertReceived.
Proof.
  intros H L A E. destruct (awaits_usable _ _ _ _ _ A) as [U _].
  assert (E' : read_handshake m r = (Err AlertReceived, r')) by (apply handshake_alert; eauto).
  exact (faults m s p g st AlertReceived H L (awaits_fault _ _ _ _ _ _ _ A E')).
Qed.
(** ... and where the ChangeCipherSpec is due *)
Theorem ccs_alert m s p g ss r a r' : healthy (writer_new p) -> (32 <= length g)%nat -> awaits_ccs m s g ss r -> read_message m r = (Ok (AlertMessage a), r') ->
  exists c, client_new m s p g = (Err UnexpectedMessage, c) /\ w_out (c_writer c) = stage_out (Complete ss) ++ alert_out (Complete ss) UnexpectedMessage.
Proof.
  intros H L (r0 & R & F & ->) E. refine (faults m s p g (Complete ss) UnexpectedMessage H L _). eapply F_second; [exact R|exact F|].
  apply FA_ccs with r'. unfold read_change_cipher_spec, mbind. rewrite E. reflexivity.
Qed.
Lemma alert_record m r maj min f a r1 : no_pending r -> read_record m r = (Ok (Rec AlertTy maj min f), r1) -> known_alert f a -> read_message m r = (Ok (AlertMessage a), r1).
Proof.
  intros N E K. destruct (alert_validated m r _ r1 N E eq_refl) as [(a' & K' & H)|(No & _)]; [|exfalso; exact (No a K)]. cbn [rc_fragment] in K'.
  rewrite H. f_equal. f_equal. f_equal. destruct K as (l & d & q & -> & K1 & K2), K' as (l' & d' & q' & X & K1' & K2'). injection X as <- <- <-.
  apply level_lookup in K1, K1'. apply desc_lookup in K2, K2'. destruct a as [v w], a' as [v' w']. cbn [al_level al_desc] in *. congruence.
Qed.
(** ** What each error means *)
Lemma fault_cases m s g st k : fault m s g st k ->
  (exists r r', awaits m s g st r /\ read_handshake m r = (Err k, r')) \/
  (exists ss r r', st = Complete ss /\ awaits_ccs m s g ss r /\ read_change_cipher_spec m r = (Err k, r')) \/
  k = UnexpectedMessage \/
  (k = IllegalParameter /\ exists sh r1, read_handshake m (reader_new s) = (Ok (server_hello_msg sh), r1) /\ ~ offered sh) \/
  (exists skx g', exchanged m s skx /\ compute_keys m skx (skipn 32 g) = (Err k, g')) \/
  (k = DecryptError /\ exists ss r v r', st = Complete ss /\ awaits_ccs m s g ss r /\ server_answer m r (s_keys ss) v r' /\ v <> expected_server ss).
Proof.
  assert (Rf : forall k1 r P, refused m r P k1 -> (exists r', read_handshake m r = (Err k1, r')) \/ k1 = UnexpectedMessage) by (intros k1 r P [?|[? _]]; auto).
  intros [k' F|ss r k' R Fl F].
  - destruct F as [k0 F|sh r1 F1 O|sh r1 k0 F1 O F|sh certs r1 r2 k0 F1 O F2 F|sh certs skx r1 r2 r3 k0 g' F1 O F2 F3 K|sh certs skx r1 r2 r3 kp g' k0 F1 O F2 F3 K F].
    + apply Rf in F as [(r' & F)| ->]; [|auto]. left. eexists _, _. split; [apply AW_hello|exact F].
    + right. right. right. left. eauto.
    + apply Rf in F as [(r' & F)| ->]; [|auto]. left. eexists _, _. split; [eapply AW_certificate; eauto|exact F].
    + apply Rf in F as [(r' & F)| ->]; [|auto]. left. eexists _, _. split; [eapply AW_exchange; eauto|exact F].
    + right. right. right. right. left. exists skx, g'. split; [|exact K]. exists sh, certs, r1, r2, r3. apply offered_check in O. auto.
    + apply Rf in F as [(r' & F)| ->]; [|auto]. left. eexists _, _. split; [eapply AW_done; eauto|exact F].
  - assert (AC : awaits_ccs m s g ss (ived_reader r (s_keys ss))) by (exists r; auto).
    destruct F as [k0 r' E|r1 k0 E F|v r' An N].
    + right. left. eexists _, _, _. split; [reflexivity|]. split; [exact AC|exact E].
    + apply Rf in F as [(r' & F)| ->]; [|auto]. left. eexists _, _. split; [eapply AW_finished; eauto|exact F].
    + right. right. right. right. right. split; [reflexivity|]. eexists _, _, _, _. split; [reflexivity|]. split; [exact AC|]. split; [exact An|exact N].
Qed.

Lemma handshake_kinds m r k r' : usable m r -> read_handshake m r = (Err k, r') ->
  k = AlertReceived \/ k = UnexpectedMessage \/ read_message m r = (Err k, r') /\ message_kind m r k.
Proof.
  intros U. unfold read_handshake, mbind. destruct (read_message m r) as [[msg|e| |] r1] eqn:E.
  - destruct msg; cbv [mret mfail]; intros H; apply pair_equal_spec in H as [H ->]; try discriminate H; injection H as <-; auto.
  - intros H. apply pair_equal_spec in H as [H ->]. injection H as ->. right. right. split; [reflexivity|]. eapply read_message_kinds; eauto.
  - discriminate.
  - discriminate.
Qed.
Lemma ccs_kinds m r k r' : usable m r -> read_change_cipher_spec m r = (Err k, r') ->
  k = UnexpectedMessage \/ read_message m r = (Err k, r') /\ message_kind m r k.
Proof.
  intros U. unfold read_change_cipher_spec, mbind. destruct (read_message m r) as [[msg|e| |] r1] eqn:E.
  - destruct msg; cbv [mret mfail]; intros H; apply pair_equal_spec in H as [H ->]; try discriminate H; injection H as <-; auto.
  - intros H. apply pair_equal_spec in H as [H ->]. injection H as ->. right. split; [reflexivity|]. eapply read_message_kinds; eauto.
  - discriminate.
  - discriminate.
Qed.
Lemma ske_kinds m data g k g' : compute_keys m data g = (Err k, g') ->
  (k = IoFailure \/ k = DecodeError) /\ tls_read i_ske data = Err k \/
  k = IllegalParameter /\ exists q rest, tls_read i_ske data = Ok (q, rest) /\ from_uncompressed_bytes m (ske_public q) = Ok None.
Proof. intros E. apply keys_errors in E as (_ & [E|E]); [left; split; [eapply kinds_ske; exact E|exact E]|right; exact E]. Qed.
(** the meaning of each error, in terms of what was read *)
Theorem meanings m s p g k c : healthy (writer_new p) -> client_new m s p g = (Err k, c) -> meaning m s g k.
Proof.
  intros H E. apply errors_are_faults in E as (st & F); [|exact H]. apply fault_cases in F.
  destruct F as [(r & r' & A & E)|[(ss & r & r' & -> & A & E)|[->|[(-> & sh & r1 & E & O)|[(skx & g' & X & E)|(-> & ss & r & v & r' & -> & A & S & N)]]]]].
  - destruct (awaits_usable _ _ _ _ _ A) as [U D]. pose proof E as E0. apply handshake_kinds in E as [->|[->|[E Ki]]].
    + apply handshake_alert in E0; [|exact U]. destruct E0 as (a & E0). exists st, r, a, r'. auto.
    + exact I.
    + assert (Du : due m s g r) by (left; eauto).
      unfold message_kind in Ki. destruct k; try exact I; try (exfalso; clear - Ki; intuition discriminate); cbn [meaning]; eauto 6.
      destruct st as [|cr|ss]; [exfalso| exfalso|exists ss, r, r'; auto]; clear - Ki D; intuition (try discriminate; congruence).
    + exact U.
  - destruct (awaits_ccs_usable _ _ _ _ _ A) as [U D]. apply ccs_kinds in E as [->|[E Ki]]; [exact I| |exact U].
    assert (Du : due m s g r) by (right; eauto).
    unfold message_kind in Ki. destruct k; try exact I; try (exfalso; clear - Ki D; intuition (try discriminate; congruence)); cbn [meaning]; eauto 6.
  - exact I.
  - cbn [meaning]. left. eauto.
  - apply ske_kinds in E as [[[->| ->] E]|(-> & q & rest & E & B)]; cbn [meaning]; [right; eauto|right; eauto|]. right. exists skx, q, rest. auto.
  - cbn [meaning]. exists ss, r, v, r'. auto.
Qed.

(** ** On the wire *)
Lemma clear_record m s t maj min f rest : stream s = wire t maj min f ++ rest -> zlen f <= 16384 ->
  exists r1, read_record m (reader_new s) = (Ok (Rec t maj min f), r1) /\ r_buf r1 = [] /\ r_count r1 = 1 /\ r_dec r1 = None /\ stream (r_src r1) = rest.
Proof.
  intros S L. destruct (read_record_wire m (reader_new s) t maj min f rest S) as (s' & S' & _ & E); [unfold ENC_RECORD_MAX_LEN; lia|].
  rewrite E. unfold finish, mbind, unprotect. cbn [reader_new set_src r_dec r_count].
  unfold record_new, RECORD_MAX_LEN. destruct (Z.ltb_spec (2 ^ 14) (zlen f)) as [X|_]; [change (2 ^ 14) with 16384 in X; lia|].
  unfold r_bump. cbn [r_count set_src reader_new]. rewrite ck_ok by lia. cbn [mret]. eexists. split; [reflexivity|]. cbn [r_buf r_count r_dec r_src]. auto.
Qed.
(** the server answers the ClientHello with an alert *)
Theorem alert_first m s p g maj min f a rest : healthy (writer_new p) -> (32 <= length g)%nat ->
  stream s = wire AlertTy maj min f ++ rest -> zlen f <= 16384 -> known_alert f a ->
  exists c, client_new m s p g = (Err AlertReceived, c) /\ w_out (c_writer c) = flight_hello (firstn 32 g) ++ e_record AlertTy [x02; x00].
Proof.
  intros H L S Lf K. destruct (clear_record m s AlertTy maj min f rest S Lf) as (r1 & E & _).
  exact (any_alert m s p g _ _ a r1 H L (AW_hello m s g) (alert_record m (reader_new s) maj min f a r1 eq_refl E K)).
Qed.
(** ... or sends one in place of its Finished *)
Theorem alert_last m s p g ss r r1 f a rest : healthy (writer_new p) -> reached m s g (Complete ss) -> server_flight m (reader_new s) (s_sh ss) (s_certs ss) (s_ske ss) r ->
  read_change_cipher_spec m (ived_reader r (s_keys ss)) = (Ok tt, r1) -> zlen f <= 16384 -> known_alert f a ->
  stream (r_src r1) = sealed_record (k_server (s_keys ss)) (iv_server (s_keys ss)) 0 AlertTy f ++ rest ->
  exists c, client_new m s p g = (Err AlertReceived, c) /\
    w_out (c_writer c) = stage_out (Complete ss) ++ sealed_record (k_client (s_keys ss)) (iv_client (s_keys ss)) 1 AlertTy [x02; x00].
Proof.
  intros H R F C L Kn S. pose proof (finished_reader _ _ _ _ _ _ R F C) as Kd. pose proof (ccs_nothing_complete _ _ _ C) as NP.
  assert (NP' : no_pending (decrypting m r1 (s_keys ss))) by exact NP.
  destruct (sealed_step m _ _ _ 0 AlertTy f rest Kd S L ltac:(reflexivity)) as (r2 & E & _).
  exact (any_alert m s p g _ _ a r2 H (proj1 R) (AW_finished m s g ss r r1 R F C) (alert_record m _ _ _ f a r2 NP' E Kn)).
Qed.
(** a warning in front of a handshake that would have succeeded *)
Theorem warning_aborts m : exists s g c ss c', client_new m s [] g = (Ok tt, c) /\ reached m s g (Complete ss) /\
  client_new m (RData (e_record AlertTy [x01; x70]) :: s) [] g = (Err AlertReceived, c') /\
  w_out (c_writer c') = flight_hello (firstn 32 g) ++ e_record AlertTy [x02; x00].
Proof.
  destruct (short_run m) as (s & g & c & ss & _ & E & R).
  destruct (alert_first m (RData (e_record AlertTy [x01; x70]) :: s) [] g x03 x03 [x01; x70] (Alert AL_warning AD_unrecognized_name) (stream s)) as (c' & E' & O).
  - constructor.
  - apply R.
  - reflexivity.
  - discriminate.
  - exists x01, x70, []. split; [reflexivity|]. split; [left; reflexivity|]. cbn. tauto.
  - exists s, g, c, ss, c'. auto.
Qed.

(** ** A first message that cannot be decoded *)
Theorem undecodable_first m s p g ty body rest k : healthy (writer_new p) -> (32 <= length g)%nat ->
  stream s = e_record HandshakeTy (frame ty body) ++ rest -> zlen (frame ty body) <= 16384 -> fst (get_message (frame ty body)) = Err k ->
  exists c, client_new m s p g = (Err k, c) /\ w_out (c_writer c) = flight_hello (firstn 32 g) ++ signal (Hello (firstn 32 g)) k.
Proof.
  intros H L S Lf G. destruct (clear_record m s HandshakeTy x03 x03 _ rest S Lf) as (r1 & E & B & _).
  destruct (get_message (frame ty body)) as [x b] eqn:Gm. cbn [fst] in G. subst x.
  assert (Rm : exists r', read_message m (reader_new s) = (Err k, r')).
  { assert (X : read_message m (reader_new s) = pull m (reader_new s)) by (rewrite read_message_eq; reflexivity). rewrite X.
    rewrite pull_eq. unfold mbind. rewrite E. unfold handle_record. cbn [rc_type rc_fragment]. destruct (frame ty body) as [|b0 f0] eqn:Ef; [discriminate Ef|].
    unfold mbind, r_add_record, r_get_message. cbn [r_buf]. rewrite B. unfold add_record. cbn [app]. rewrite Gm. eauto. }
  destruct Rm as (r' & Rm). apply (faults m s p g (Hello (firstn 32 g)) k H L). eapply awaits_fault; [apply AW_hello|].
  unfold read_handshake, mbind. rewrite Rm. reflexivity.
Qed.
Theorem cut_first m s p g sh b1 b2 rest : healthy (writer_new p) -> (32 <= length g)%nat ->
  wf_handshake (server_hello_msg sh) -> sh_exts sh = None -> e_server_hello sh = b1 ++ b2 -> b2 <> [] ->
  stream s = e_record HandshakeTy (frame x02 b1) ++ rest ->
  exists c, client_new m s p g = (Err IoFailure, c) /\ w_out (c_writer c) = flight_hello (firstn 32 g).
Proof.
  intros H L W X E Q S.
  assert (G : get_message (frame x02 b1 ++ []) = (Err IoFailure, [])).
  { destruct (cut_message (server_hello_msg sh) b1 b2 [] W E Q ltac:(intros [])) as [G|[_ N]]; [exact G|]. exfalso. apply N. cbn [without_extensions].
    destruct sh. cbn in *. subst. reflexivity. }
  rewrite app_nil_r in G.
  assert (Lb : zlen (e_server_hello sh) <= 71 + 1).
  { destruct W as [[(W1 & W2 & _) _] _]. destruct sh as [v r s0 c z x]. cbn [sh_exts sh_random sh_session] in *. subst x. unfold e_server_hello.
    cbn [sh_exts sh_random sh_session sh_version sh_suite sh_comp]. rewrite !zlen_app. unfold sp_vec. rewrite ?zlen_app. rewrite ?zlen_be. unfold zlen in *. rewrite W1. assert (length (e_version v) = 2%nat) by (destruct v; reflexivity). assert (length (e_suite c) <= 2)%nat by (destruct c; cbn; lia). assert (length (e_comp z) = 1%nat) by (destruct z; reflexivity). cbn [e_exts length]. lia. }
  destruct (undecodable_first m s p g x02 b1 rest IoFailure H L S) as (c & E1 & O).
  - unfold frame, sp_vec. rewrite E, zlen_app in Lb. rewrite !zlen_app, zlen_be. pose proof (zlen_nonneg b2). change (zlen [x02]) with 1. lia.
  - rewrite G. reflexivity.
  - exists c. split; [exact E1|]. rewrite O. apply app_nil_r.
Qed.
Theorem cut_witness m : exists s g c, stream s = e_record HandshakeTy (frame x02 [x03]) /\
  client_new m s [] g = (Err IoFailure, c) /\ w_out (c_writer c) = flight_hello (firstn 32 g).
Proof.
  set (sh := ServerHello (Version x03 x03) (repeat x00 32) [] TLS_ECDHE_RSA_WITH_CHACHA20_POLY1305_SHA256 CM_null None).
  destruct (cut_first m [RData (e_record HandshakeTy (frame x02 [x03]))] [] (repeat x00 32) sh [x03] (tl (e_server_hello sh)) []) as (c & E & O).
  - constructor.
  - apply Nat.leb_le. reflexivity.
  - split; [split; [split; [reflexivity|split; [discriminate|exact I]]|discriminate]|reflexivity].
  - reflexivity.
  - reflexivity.
  - discriminate.
  - reflexivity.
  - eexists _, _, c. split; [|split; [exact E|exact O]]. reflexivity.
Qed.
Lemma silent_message m : exists r, read_message m (reader_new []) = (Err IoFailure, r).
Proof. destruct m; eexists; reflexivity. Qed.
Lemma no_alert_in_silence m g : ~ meaning m [] g AlertReceived.
Proof.
  intros (st & r & a & r' & A & E). destruct (silent_message m) as (r0 & S).
  assert (H : read_handshake m (reader_new []) = (Err IoFailure, r0)) by (unfold read_handshake, mbind; rewrite S; reflexivity).
  inversion A; subst; try congruence.
  match goal with F : server_flight _ _ _ _ _ _ |- _ => destruct F as (? & ? & ? & F & _); congruence end.
Qed.
