(** Proofs of the record-layer properties. *)
From Verif Require Import Spec_Record P_Util P_Codec P_RecordW P_RecordR.

(** ** One record from the wire *)
(** [s] is what stands on the wire for the fragment [f] at sequence number [k] *)
Definition carried (o : option decryptor) (iv : option bytes) (k : Z) (t : content_type) (maj min : byte) (f s : bytes) : Prop :=
  match o with
  | None => s = f
  | Some d => dc_mac_len d <= zlen s /\ dc_decrypt d (seq_nonce k iv) s (rfc_ad k t maj min (zlen s - dc_mac_len d)) = Ok f
  end.

Lemma unprotect_carried r t maj min f s : carried (r_dec r) (r_iv r) (r_count r) t maj min f s -> zlen f <= 16384 ->
  unprotect t maj min s r = Ok (Rec t maj min f).
Proof.
  unfold carried, unprotect, record_new. intros H L.
  assert (HL : (RECORD_MAX_LEN <? zlen f) = false) by (apply Z.ltb_ge; exact L).
  destruct (r_dec r) as [d|].
  - destruct H as [H1 H2]. replace (zlen s <? dc_mac_len d) with false by (symmetry; apply Z.ltb_ge; exact H1).
    rewrite seq_ad_rfc, H2. cbn [rbind]. rewrite HL. reflexivity.
  - subst s. rewrite HL. reflexivity.
Qed.

Lemma wire_step m r t maj min f s rest :
  stream (r_src r) = wire t maj min s ++ rest -> carried (r_dec r) (r_iv r) (r_count r) t maj min f s ->
  zlen f <= 16384 -> zlen s <= 16384 + 2048 -> 0 <= r_count r -> r_count r + 1 < 2 ^ 64 ->
  exists s', stream s' = rest /\ (clean (r_src r) -> clean s') /\
    read_record m r = (Ok (Rec t maj min f), set_count (set_src r s') (r_count r + 1)).
Proof.
  intros E H L LS C C'. destruct (read_record_wire m r t maj min s rest E LS) as (s' & S & K & R).
  exists s'. split; [exact S|]. split; [exact K|]. rewrite R. unfold finish, mbind.
  rewrite (unprotect_carried (set_src r s') t maj min f s); [|exact H|exact L].
  unfold r_bump. cbn [r_count set_src]. rewrite ck_ok by lia. reflexivity.
Qed.

Lemma wire_steps m t maj min fs : forall ss r rest,
  length fs = length ss ->
  (forall i f s, nth_error fs i = Some f -> nth_error ss i = Some s ->
     carried (r_dec r) (r_iv r) (r_count r + Z.of_nat i) t maj min f s /\ zlen f <= 16384 /\ zlen s <= 16384 + 2048) ->
  stream (r_src r) = concat (map (wire t maj min) ss) ++ rest ->
  0 <= r_count r -> r_count r + zlen fs < 2 ^ 64 ->
  exists r', yields m r (map (Rec t maj min) fs) r' /\ stream (r_src r') = rest /\
    (clean (r_src r) -> clean (r_src r')) /\
    r' = set_count (set_src r (r_src r')) (r_count r + zlen fs).
Proof.
  induction fs as [|f fs IH]; intros ss r rest HL H E C C'.
  - destruct ss; [|discriminate]. exists r. split; [constructor|]. split; [exact E|]. split; [auto|].
    rewrite zlen_nil, Z.add_0_r. destruct r; reflexivity.
  - destruct ss as [|s ss]; [discriminate|]. cbn [map concat] in E. rewrite <- app_assoc in E.
    rewrite zlen_cons in C'. pose proof (zlen_nonneg fs).
    destruct (H 0%nat f s eq_refl eq_refl) as (Hc0 & L & LS). rewrite Z.add_0_r in Hc0.
    destruct (wire_step m r t maj min f s _ E Hc0 L LS C) as (s' & Sx & K & R); [lia|].
    destruct (IH ss (set_count (set_src r s') (r_count r + 1)) rest) as (r' & Y & S' & K' & R').
    + cbn in HL. lia.
    + intros i f' s0 Hf Hs. cbn [r_dec r_iv r_count set_count set_src].
      replace (r_count r + 1 + Z.of_nat i) with (r_count r + Z.of_nat (S i)) by lia. apply H; assumption.
    + exact Sx.
    + cbn. lia.
    + cbn [r_count set_count set_src]. lia.
    + exists r'. split; [econstructor; eassumption|]. split; [exact S'|]. split; [auto|].
      rewrite zlen_cons, R' at 1. unfold set_count, set_src. cbn [r_count r_src r_dec r_buf r_iv]. f_equal. lia.
Qed.

(** ** C12 *)
Lemma legal_nonempty f : legal_fragment f -> f <> [].
Proof. intros [H _] ->. rewrite zlen_nil in H. lia. Qed.

Lemma reassembly_clear m maj min hs fs r rest :
  Forall wf_handshake hs -> Forall legal_fragment fs -> concat fs = concat (map e_handshake hs) ->
  r_dec r = None -> r_buf r = [] -> 0 <= r_count r -> r_count r + zlen fs < 2 ^ 64 ->
  stream (r_src r) = concat (map (wire HandshakeTy maj min) fs) ++ rest ->
  exists r', reads (read_message m) (length hs) r = (map Ok (map HandshakeMessage hs), r') /\
    r_buf r' = [] /\ stream (r_src r') = rest.
Proof.
  intros W L E D B C C' S.
  destruct (wire_steps m HandshakeTy maj min fs fs r rest eq_refl) as (r' & Y & S' & _ & _); try assumption.
  { intros i f s Hf Hs. rewrite Hf in Hs. inversion Hs; subst s. rewrite D. cbn.
    apply nth_error_In in Hf. rewrite Forall_forall in L. specialize (L f Hf). destruct L. split; [reflexivity|]. lia. }
  destruct (reassembly_all m maj min hs fs r r' W) as (R & B'); try assumption.
  - eapply Forall_impl; [|exact L]. exact legal_nonempty.
  - exists r'. auto.
Qed.

Lemma opens_use e d n f a s : opens e d -> e n f a = Ok s -> length n = 12%nat -> length a = 13%nat ->
  zlen f <= 16384 + 2048 -> zlen s = zlen f + dc_mac_len d /\ dc_decrypt d n s a = Ok f.
Proof. intros O E Hn Ha Hf. destruct (O n f a Hn Ha Hf) as (c & Ec & L & D). rewrite E in Ec. inversion Ec; subst. auto. Qed.

Lemma reassembly_sealed m e d iv hs fs ss r rest :
  opens e d -> 0 <= dc_mac_len d <= 2048 -> length iv = 12%nat ->
  Forall wf_handshake hs -> Forall legal_fragment fs -> concat fs = concat (map e_handshake hs) ->
  sealed_as e iv (r_count r) HandshakeTy fs ss ->
  r_dec r = Some d -> r_iv r = Some iv -> r_buf r = [] -> 0 <= r_count r -> r_count r + zlen fs < 2 ^ 64 ->
  stream (r_src r) = concat (map (e_record HandshakeTy) ss) ++ rest ->
  exists r', reads (read_message m) (length hs) r = (map Ok (map HandshakeMessage hs), r') /\
    r_buf r' = [] /\ stream (r_src r') = rest.
Proof.
  intros O M Hiv W L E [SL SA] D I B C C' S.
  destruct (wire_steps m HandshakeTy x03 x03 fs ss r rest SL) as (r' & Y & S' & _ & _); try assumption.
  { intros i f s Hf Hs. assert (Hi : (i < length fs)%nat) by (apply nth_error_Some; congruence).
    specialize (SA i f s Hf Hs).
    assert (Hl : legal_fragment f) by (rewrite Forall_forall in L; apply L; eapply nth_error_In; eassumption).
    destruct Hl as [Hl1 Hl2].
    rewrite D, I. unfold carried, zlen in *.
    rewrite <- seq_nonce_rfc in SA by (try assumption; lia).
    destruct (opens_use _ _ _ _ _ _ O SA (seq_nonce_length _ _) (rfc_ad_length _ _ _ _ _)) as (Lc & Ed); [unfold zlen; lia|].
    unfold zlen in Lc. split; [|lia]. split; [lia|].
    replace (Z.of_nat (length s) - dc_mac_len d) with (Z.of_nat (length f)) by lia. exact Ed. }
  destruct (reassembly_all m x03 x03 hs fs r r' W) as (R & B'); try assumption.
  - eapply Forall_impl; [|exact L]. exact legal_nonempty.
  - exists r'. auto.
Qed.

(** ** C15: from writer to reader *)
Lemma opens_seals e d : opens e d -> seals e (dc_mac_len d).
Proof. intros O n p a Hn Ha Hp. destruct (O n p a Hn Ha) as (c & E & L & _); [lia|]. eauto. Qed.

Lemma fragments_travel m t fs w r : Forall legal_fragment fs -> healthy w -> paired w r -> w_count w + zlen fs < 2 ^ 64 ->
  exists w' bs, write_fragments m t fs w = (Ok tt, w') /\ healthy w' /\ w_out w' = w_out w ++ bs /\
    w_enc w' = w_enc w /\ w_count w' = w_count w + zlen fs /\
    forall r2 rest, paired w r2 -> stream (r_src r2) = bs ++ rest ->
      exists r', yields m r2 (map (Rec t x03 x03) fs) r' /\ stream (r_src r') = rest /\ paired w' r'.
Proof.
  intros L Hh (Pc & P0 & Pi & Pb & Pe) C.
  destruct (w_enc w) as [e|] eqn:Ee, (r_dec r) as [d|] eqn:Ed; try contradiction.
  - destruct Pe as (O & M & iv & Hiv & Liv).
    destruct (write_fragments_sealed m t e iv (dc_mac_len d) fs Liv (opens_seals _ _ O) M L w Ee Hiv P0 C)
      as (x & w' & ss & E & SA & SB & Em & W1 & W2 & W3 & W4).
    destruct Em as [[-> Ho]|(_ & Hn & _)]; [|contradiction].
    specialize (W4 eq_refl).
    exists w', (concat (map (e_record t) ss)). split; [exact E|]. split; [auto|]. split; [exact Ho|].
    split; [congruence|]. split; [exact W4|]. clear r Pc Pi Pb Ed d O M SB.
    intros r rest (Pc & _ & Pi & Pb & Pe) Hs. rewrite Ee in Pe. destruct (r_dec r) as [d|] eqn:Ed; [|contradiction].
    destruct Pe as (O & M & _).
    destruct SA as [SL SA].
    destruct (wire_steps m t x03 x03 fs ss r rest SL) as (r' & Y & S' & _ & R').
    { intros i f s Hf Hs'. assert (Hi : (i < length fs)%nat) by (apply nth_error_Some; congruence).
      specialize (SA i f s Hf Hs').
      assert (Hl : legal_fragment f) by (rewrite Forall_forall in L; apply L; eapply nth_error_In; eassumption).
      destruct Hl as [Hl1 Hl2].
      rewrite Ed. rewrite <- Pi, Hiv, <- Pc. unfold carried, zlen in *.
      rewrite <- seq_nonce_rfc in SA by (try assumption; lia).
      destruct (opens_use _ _ _ _ _ _ O SA (seq_nonce_length _ _) (rfc_ad_length _ _ _ _ _)) as (Lc & Ed'); [unfold zlen; lia|].
      unfold zlen in Lc. split; [|lia]. split; [lia|].
      replace (Z.of_nat (length s) - dc_mac_len d) with (Z.of_nat (length f)) by lia. exact Ed'. }
    + exact Hs.
    + lia.
    + lia.
    + exists r'. split; [exact Y|]. split; [exact S'|]. rewrite R'. unfold paired, set_count, set_src. cbn.
      rewrite W1, Ed. split; [rewrite W4; lia|]. pose proof (zlen_nonneg fs). split; [lia|].
      split; [congruence|]. split; [exact Pb|]. split; [exact O|]. split; [exact M|]. exists iv. auto.
  - destruct (write_fragments_clear m t fs L w Ee P0 C) as (x & w' & E & Em & W1 & W2 & W3 & W4).
    destruct Em as [[-> Ho]|(_ & Hn & _)]; [|contradiction].
    specialize (W4 eq_refl).
    exists w', (concat (map (e_record t) fs)). split; [exact E|]. split; [auto|]. split; [exact Ho|].
    split; [congruence|]. split; [exact W4|]. clear r Pc Pi Pb Ed Pe.
    intros r rest (Pc & _ & Pi & Pb & Pe) Hs. rewrite Ee in Pe. destruct (r_dec r) as [d|] eqn:Ed; [contradiction|].
    destruct (wire_steps m t x03 x03 fs fs r rest eq_refl) as (r' & Y & S' & _ & R').
    { intros i f s Hf Hs'. rewrite Hf in Hs'. inversion Hs'; subst s. rewrite Ed. cbn.
      apply nth_error_In in Hf. rewrite Forall_forall in L. specialize (L f Hf). destruct L. split; [reflexivity|]. lia. }
    + exact Hs.
    + lia.
    + lia.
    + exists r'. split; [exact Y|]. split; [exact S'|]. rewrite R'. unfold paired, set_count, set_src. cbn.
      rewrite W1, Ed. split; [rewrite W4; lia|]. pose proof (zlen_nonneg fs). split; [lia|].
      split; [congruence|]. split; [exact Pb|]. exact I.
Qed.

Lemma reads_app {A} (act : M reader A) a b r xs r1 ys r2 :
  reads act a r = (map Ok xs, r1) -> length xs = a -> reads act b r1 = (map Ok ys, r2) ->
  reads act (a + b) r = (map Ok (xs ++ ys), r2).
Proof.
  revert r xs. induction a as [|a IH]; intros r xs E L E2.
  - destruct xs; [|discriminate]. cbn in *. inversion E; subst. exact E2.
  - destruct xs as [|x xs]; [discriminate|]. cbn [Nat.add reads] in *.
    destruct (act r) as [[y|k| |] r'] eqn:Ea; cbn [map] in E; try (inversion E; fail).
    + destruct (reads act a r') as [zs rz] eqn:Er. inversion E; subst. rewrite (IH r' xs Er) by (cbn in L; lia || assumption). reflexivity.
    + destruct (reads act a r') as [zs rz]; inversion E.
Qed.

Lemma buf_short b : b = [] -> get_message b = (Ok None, b).
Proof. intros ->. reflexivity. Qed.

(** one non-handshake record is one message *)
Lemma message_of_record m r rec r1 msg : r_buf r = [] -> read_record m r = (Ok rec, r1) ->
  handle_record rec r1 = (Ok (Some msg), r1) -> read_message m r = (Ok msg, r1).
Proof.
  intros B E H. rewrite read_message_eq, (buf_short _ B), set_buf_id, pull_eq. unfold mbind. rewrite E, H. reflexivity.
Qed.

Lemma read_app_records m fs : forall r r', r_buf r = [] ->
  yields m r (map (Rec ApplicationDataTy x03 x03) fs) r' ->
  reads (read_message m) (length fs) r = (map Ok (map ApplicationDataMessage fs), r').
Proof.
  induction fs as [|f fs IH]; intros r r' B Y; inversion Y as [|? ? r1 ? ? E Y1]; subst; [reflexivity|].
  cbn [length reads map]. rewrite (message_of_record m r _ r1 (ApplicationDataMessage f) B E) by reflexivity.
  assert (B1 : r_buf r1 = []).
  { rewrite <- B. apply (yields_same_buf m r [Rec ApplicationDataTy x03 x03 f]). econstructor; [exact E|constructor]. }
  rewrite (IH r1 r' B1 Y1). reflexivity.
Qed.

Lemma chunks_small (data : bytes) : 1 <= zlen data <= 16384 -> chunks (Z.to_nat RECORD_MAX_LEN) data = [data].
Proof.
  intros H. rewrite chunks_cons.
  - rewrite firstn_all2, skipn_all2; [reflexivity| |]; unfold zlen, RECORD_MAX_LEN in *; lia.
  - unfold RECORD_MAX_LEN; lia.
  - intros ->. rewrite zlen_nil in H. lia.
Qed.

Lemma one_op m o w r : wf_msg_op o -> healthy w -> paired w r -> w_count w + payload o < 2 ^ 64 ->
  (forall d, o = SendApp d -> w_enc w <> None) ->
  exists w' bs ms, run_op m (as_wop o) w = (Ok tt, w') /\ healthy w' /\ w_out w' = w_out w ++ bs /\
    w_enc w' = w_enc w /\ w_count w' <= w_count w + payload o /\ delivers [o] ms /\
    forall r2 rest, paired w r2 -> stream (r_src r2) = bs ++ rest ->
      exists r', reads (read_message m) (length ms) r2 = (map Ok ms, r') /\
                 stream (r_src r') = rest /\ paired w' r'.
Proof.
  intros W Hh P C Ha. pose proof P as (_ & P0 & _).
  destruct o as [h|a| |d]; cbn [as_wop run_op payload wf_msg_op] in *.
  - unfold write_handshake, mbind, mlift.
    rewrite (hs_write_enc h W : tls_write i_handshake h = _). unfold write_data.
    destruct (fragments_legal (e_handshake h)) as (F1 & F2 & F3).
    set (fs := chunks (Z.to_nat RECORD_MAX_LEN) (e_handshake h)) in *.
    destruct (fragments_travel m HandshakeTy fs w r F2 Hh P) as (w' & bs & E & H1 & H2 & H3 & H4 & H5); [lia|].
    exists w', bs, [HandshakeMessage h]. split; [exact E|]. split; [exact H1|]. split; [exact H2|]. split; [exact H3|].
    split; [lia|]. split; [constructor; constructor|]. intros r2 rest P2 Hs. pose proof P2 as (_ & _ & _ & Pb & _).
    destruct (H5 r2 rest P2 Hs) as (r' & Y & S & P'). exists r'.
    destruct (reassembly_all m x03 x03 [h] fs r2 r') as (R & _).
    + constructor; [exact W|constructor].
    + eapply Forall_impl; [|exact F2]. exact legal_nonempty.
    + exact Pb.
    + cbn [map concat]. rewrite app_nil_r. exact F1.
    + exact Y.
    + split; [exact R|]. auto.
  - unfold write_alert, mbind, mlift. rewrite (co_write _ _ _ codec_alert a I). unfold write_data.
    rewrite chunks_small by (cbn; lia).
    assert (La : legal_fragment (e_alert a)) by (unfold legal_fragment; cbn; lia).
    destruct (fragments_travel m AlertTy [e_alert a] w r) as (w' & bs & E & H1 & H2 & H3 & H4 & H5);
      [constructor; [exact La|constructor]|exact Hh|exact P|cbn; lia|].
    exists w', bs, [AlertMessage a]. split; [exact E|]. split; [exact H1|]. split; [exact H2|]. split; [exact H3|].
    split; [cbn in H4; lia|]. split; [constructor; constructor|]. intros r2 rest P2 Hs. pose proof P2 as (_ & _ & _ & Pb & _).
    destruct (H5 r2 rest P2 Hs) as (r' & Y & S & P'). exists r'. cbn [map] in Y.
    inversion Y as [|? ? r1 ? ? Er Y1]; subst. inversion Y1; subst.
    cbn [length reads map]. rewrite (message_of_record m _ _ r' (AlertMessage a) Pb Er); [auto|].
    destruct a as [l ds]. unfold handle_record. cbn [rc_type rc_fragment e_alert].
    destruct l, ds; reflexivity.
  - unfold write_change_cipher_spec, write_data. rewrite chunks_small by (cbn; lia).
    assert (La : legal_fragment [x01]) by (unfold legal_fragment; cbn; lia).
    destruct (fragments_travel m ChangeCipherSpecTy [[x01]] w r) as (w' & bs & E & H1 & H2 & H3 & H4 & H5);
      [constructor; [exact La|constructor]|exact Hh|exact P|cbn; lia|].
    exists w', bs, [ChangeCipherSpecMessage]. split; [exact E|]. split; [exact H1|]. split; [exact H2|]. split; [exact H3|].
    split; [cbn in H4; lia|]. split; [constructor; constructor|]. intros r2 rest P2 Hs. pose proof P2 as (_ & _ & _ & Pb & _).
    destruct (H5 r2 rest P2 Hs) as (r' & Y & S & P'). exists r'. cbn [map] in Y.
    inversion Y as [|? ? r1 ? ? Er Y1]; subst. inversion Y1; subst.
    cbn [length reads map]. rewrite (message_of_record m _ _ r' ChangeCipherSpecMessage Pb Er) by reflexivity. auto.
  - unfold write_application_data. destruct (w_enc w) as [e|] eqn:Ee; [|exfalso; eapply Ha; eauto].
    unfold write_data. destruct (fragments_legal d) as (F1 & F2 & F3). set (fs := chunks (Z.to_nat RECORD_MAX_LEN) d) in *.
    destruct (fragments_travel m ApplicationDataTy fs w r F2 Hh P) as (w' & bs & E & H1 & H2 & H3 & H4 & H5); [lia|].
    exists w', bs, (map ApplicationDataMessage fs ++ []). split; [exact E|]. split; [exact H1|]. split; [exact H2|].
    split; [congruence|]. split; [lia|]. split; [constructor; [exact F1|exact F2|constructor]|]. intros r2 rest P2 Hs. pose proof P2 as (_ & _ & _ & Pb & _).
    destruct (H5 r2 rest P2 Hs) as (r' & Y & S & P'). exists r'. rewrite app_nil_r, map_length.
    rewrite (read_app_records m fs _ r') by assumption. auto.
Qed.

Lemma delivers_app o os ms1 ms2 : delivers [o] ms1 -> delivers os ms2 -> delivers (o :: os) (ms1 ++ ms2).
Proof.
  intros D1 D2. inversion D1; subst; clear D1;
    match goal with H : delivers [] _ |- _ => inversion H; subst; clear H end;
    rewrite ?app_nil_r; cbn [app]; constructor; assumption || reflexivity.
Qed.

Lemma payloads_cons o os : payloads (o :: os) = payload o + payloads os.
Proof. reflexivity. Qed.
Lemma payload_nonneg o : 0 <= payload o.
Proof. destruct o; cbn [payload]; try apply zlen_nonneg; lia. Qed.
Lemma payloads_nonneg os : 0 <= payloads os.
Proof. induction os as [|o os IH]; [cbn; lia|]. rewrite payloads_cons. pose proof (payload_nonneg o). lia. Qed.

Lemma end_to_end m os : Forall wf_msg_op os -> forall w r, healthy w -> paired w r ->
  w_count w + payloads os < 2 ^ 64 -> (forall d, In (SendApp d) os -> w_enc w <> None) ->
  exists w' bs ms, run_ops m (map as_wop os) w = (repeat (Ok tt) (length os), w') /\
    w_out w' = w_out w ++ bs /\ delivers os ms /\
    forall r2 rest, paired w r2 -> stream (r_src r2) = bs ++ rest ->
      exists r', reads (read_message m) (length ms) r2 = (map Ok ms, r') /\
                 stream (r_src r') = rest /\ paired w' r'.
Proof.
  induction 1 as [|o os W Ws IH]; intros w r Hh P C Ha.
  - exists w, [], []. split; [reflexivity|]. split; [rewrite app_nil_r; reflexivity|]. split; [constructor|].
    intros r2 rest P2 Hs. exists r2. auto.
  - rewrite payloads_cons in C. pose proof (payloads_nonneg os).
    destruct (one_op m o w r W Hh P) as (w1 & b1 & m1 & E1 & H1 & O1 & K1 & C1 & D1 & R1); [lia| |].
    { intros d ->. apply (Ha d). left. reflexivity. }
    destruct (R1 (set_src r [RData b1]) []) as (r1 & _ & _ & P1).
    { exact P. }
    { cbn. destruct b1; [reflexivity|]. rewrite !app_nil_r. reflexivity. }
    destruct (IH w1 r1 H1 P1) as (w2 & b2 & m2 & E2 & O2 & D2 & R2).
    { lia. }
    { intros d Hd. rewrite K1. apply (Ha d). right. exact Hd. }
    exists w2, (b1 ++ b2), (m1 ++ m2).
    split; [cbn [map run_ops length repeat]; rewrite E1, E2; reflexivity|].
    split; [rewrite O2, O1, app_assoc; reflexivity|].
    split; [apply delivers_app; assumption|].
    intros r2 rest P2 Hs. rewrite <- app_assoc in Hs.
    destruct (R1 r2 (b2 ++ rest) P2 Hs) as (r3 & Q1 & Q2 & Q3).
    destruct (R2 r3 rest Q3 Q2) as (r4 & Q4 & Q5 & Q6).
    exists r4. split; [|auto]. rewrite app_length. eapply reads_app; eauto.
Qed.
