(** Proofs of the record-layer properties, continued: refusals, splitting, attackers. *)
From Verif Require Import Spec_Record P_Util P_Codec P_RecordW P_RecordR P_Record.

(** ** C19, C20, C22 *)
Lemma clear_overflow m r t maj min frag rest : r_dec r = None ->
  stream (r_src r) = wire t maj min frag ++ rest -> 16384 < zlen frag <= 16384 + 2048 ->
  exists r', read_record m r = (Err RecordOverflow, r') /\ r_buf r' = r_buf r /\ r_count r' = r_count r.
Proof.
  intros D S L. destruct (read_record_wire m r t maj min frag rest S) as (s' & _ & _ & R); [unfold ENC_RECORD_MAX_LEN; lia|].
  exists (set_src r s'). rewrite R. split; [|auto]. unfold finish, mbind, unprotect. cbn [r_dec set_src]. rewrite D.
  replace (RECORD_MAX_LEN <? zlen frag) with true by (symmetry; apply Z.ltb_lt; unfold RECORD_MAX_LEN; lia). reflexivity.
Qed.

Lemma header_overflow m r t maj min n rest :
  stream (r_src r) = [z2b (rfc_content_type t); maj; min] ++ be 2 n ++ rest -> 16384 + 2048 < n < 65536 ->
  exists r', read_record m r = (Err RecordOverflow, r') /\ stream (r_src r') = rest /\ r_buf r' = r_buf r /\ r_count r' = r_count r.
Proof.
  intros S L. destruct (read_record_overflow m r t maj min n rest S) as (s' & S' & R); [unfold ENC_RECORD_MAX_LEN; lia|].
  exists (set_src r s'). auto.
Qed.

Lemma sealed_overflow m r d iv t maj min p c rest :
  r_dec r = Some d -> r_iv r = Some iv -> length iv = 12%nat -> 0 <= r_count r < 2 ^ 64 ->
  stream (r_src r) = wire t maj min c ++ rest -> zlen c <= 16384 + 2048 -> zlen c = zlen p + dc_mac_len d ->
  dc_decrypt d (rfc_nonce iv (r_count r)) c (rfc_ad (r_count r) t maj min (zlen p)) = Ok p ->
  16384 < zlen p ->
  fst (read_record m r) = Panic.
Proof.
  intros D I Liv C S L Lc E Lp. destruct (read_record_wire m r t maj min c rest S) as (s' & _ & _ & R); [unfold ENC_RECORD_MAX_LEN; lia|].
  rewrite R. unfold finish, mbind, unprotect. cbn [r_dec set_src r_count r_iv]. rewrite D, I, seq_ad_rfc, seq_nonce_rfc by assumption.
  pose proof (zlen_nonneg p).
  replace (zlen c <? dc_mac_len d) with false by (symmetry; apply Z.ltb_ge; lia).
  replace (zlen c - dc_mac_len d) with (zlen p) by lia. rewrite E. cbn [rbind].
  replace (RECORD_MAX_LEN <? zlen p) with true by (symmetry; apply Z.ltb_lt; unfold RECORD_MAX_LEN; lia). reflexivity.
Qed.

(** in the clear the reader does not panic *)
Lemma clear_no_panic m r : r_dec r = None -> 0 <= r_count r -> r_count r + 1 < 2 ^ 64 -> is_value (fst (read_record m r)).
Proof.
  intros D C C'. destruct (read_record_cases m r) as [(k & r1 & E & _)|(t & maj & min & frag & r1 & E & S & _)]; rewrite E; [exact I|].
  assert (D1 : r_dec r1 = None) by (rewrite S; exact D). assert (C1 : r_count r1 = r_count r) by (rewrite S; reflexivity).
  unfold finish, mbind, unprotect, record_new. rewrite D1. destruct (RECORD_MAX_LEN <? zlen frag); [exact I|].
  unfold r_bump. rewrite C1, ck_ok by lia. exact I.
Qed.

Lemma unknown_type m r b rest : stream (r_src r) = b :: rest -> ~ In (b2z b) [20; 21; 22; 23] ->
  fst (read_record m r) = Err UnexpectedMessage /\
  (get_message (r_buf r) = (Ok None, r_buf r) -> fst (read_message m r) = Err UnexpectedMessage).
Proof.
  intros S B. destruct (read_record_unknown m r b rest S B) as (s' & _ & R). rewrite R. split; [reflexivity|].
  intros G. rewrite read_message_eq, G, set_buf_id, pull_eq. unfold mbind. rewrite R. reflexivity.
Qed.

Lemma any_version m r t maj min f rest :
  r_dec r = None -> 0 <= r_count r -> r_count r + 1 < 2 ^ 64 -> zlen f <= 16384 ->
  stream (r_src r) = wire t maj min f ++ rest ->
  exists r', read_record m r = (Ok (Rec t maj min f), r').
Proof.
  intros D C C' L S. destruct (wire_step m r t maj min f f rest S) as (s' & _ & _ & R); try assumption; try lia.
  - rewrite D. reflexivity.
  - eauto.
Qed.

(** ** C21 *)
Lemma ccs_validated m r rec r1 : get_message (r_buf r) = (Ok None, r_buf r) -> read_record m r = (Ok rec, r1) ->
  rc_type rec = ChangeCipherSpecTy ->
  (rc_fragment rec = [x01] /\ read_message m r = (Ok ChangeCipherSpecMessage, r1)) \/
  (rc_fragment rec <> [x01] /\ read_message m r = (Err UnexpectedMessage, r1)).
Proof.
  intros G E T. rewrite read_message_eq, G, set_buf_id, pull_eq. unfold mbind. rewrite E. unfold handle_record. rewrite T.
  destruct (rc_fragment rec) as [|b [|b2 l]].
  - right. split; [discriminate|reflexivity].
  - destruct (Z.eqb_spec (b2z b) 1) as [Hb|Hb].
    + left. split; [|reflexivity]. f_equal. apply b2z_inj. exact Hb.
    + right. split; [|reflexivity]. intros H. inversion H. subst b. apply Hb. reflexivity.
  - right. split; [discriminate|reflexivity].
Qed.

Lemma level_lookup z l : from_code alert_level_code alert_level_all z = Some l <-> In (l, z) sp_alert_level.
Proof.
  split.
  - intros H. apply find_some in H as [_ H]. apply Z.eqb_eq in H. subst z. destruct l; cbn; auto 40.
  - intros H. cbn in H. repeat (destruct H as [H|H]; [inversion H; subst; reflexivity|]). contradiction.
Qed.
Lemma desc_lookup z l : from_code alert_desc_code alert_desc_all z = Some l <-> In (l, z) sp_alert_desc.
Proof.
  split.
  - intros H. apply find_some in H as [_ H]. apply Z.eqb_eq in H. subst z. destruct l; cbn; auto 40.
  - intros H. cbn in H. repeat (destruct H as [H|H]; [inversion H; subst; reflexivity|]). contradiction.
Qed.

Lemma alert_validated m r rec r1 : get_message (r_buf r) = (Ok None, r_buf r) -> read_record m r = (Ok rec, r1) ->
  rc_type rec = AlertTy ->
  (exists a, known_alert (rc_fragment rec) a /\ read_message m r = (Ok (AlertMessage a), r1)) \/
  ((forall a, ~ known_alert (rc_fragment rec) a) /\ read_message m r = (Err UnexpectedMessage, r1)).
Proof.
  intros G E T. rewrite read_message_eq, G, set_buf_id, pull_eq. unfold mbind. rewrite E. unfold handle_record. rewrite T.
  destruct (rc_fragment rec) as [|l [|d more]].
  - right. split; [|reflexivity]. intros a (l & d & q & H & _). discriminate.
  - right. split; [|reflexivity]. intros a (l' & d & q & H & _). discriminate.
  - destruct (from_code alert_level_code alert_level_all (b2z l)) as [lv|] eqn:El.
    + destruct (from_code alert_desc_code alert_desc_all (b2z d)) as [ds|] eqn:Ed.
      * left. exists (Alert lv ds). split; [|reflexivity]. exists l, d, more. split; [reflexivity|].
        split; [apply level_lookup; exact El|apply desc_lookup; exact Ed].
      * right. split; [|reflexivity]. intros a (l' & d' & q & H & _ & H2). inversion H; subst.
        apply desc_lookup in H2. congruence.
    + right. split; [|reflexivity]. intros a (l' & d' & q & H & H2 & _). inversion H; subst.
      apply level_lookup in H2. congruence.
Qed.

(** ** C08 *)
Lemma same_reader_buf r1 r2 b : same_reader r1 r2 -> same_reader (set_buf r1 b) (set_buf r2 b).
Proof. unfold same_reader. cbn. intuition. Qed.

Lemma split_ret {A} (a : A) : split_independent (mret a).
Proof. intros r1 r2 H. auto. Qed.
Lemma split_fail {A} (a : res A) : split_independent (mfail a).
Proof. intros r1 r2 H. auto. Qed.
Lemma split_bind {A B} (x : M reader A) (f : A -> M reader B) :
  split_independent x -> (forall a, split_independent (f a)) -> split_independent (mbind x f).
Proof.
  intros Hx Hf r1 r2 H. unfold mbind. destruct (Hx r1 r2 H) as [E S].
  destruct (x r1) as [y1 s1], (x r2) as [y2 s2]. cbn in *. subst y2. destruct y1; auto. apply Hf. exact S.
Qed.
Lemma split_read n : split_independent (r_read n).
Proof.
  intros r1 r2 (H1 & H2 & H3 & H4 & H5). unfold r_read. destruct (fill_split _ _ n H5) as [E S].
  destruct (fill_exact (r_src r1) n), (fill_exact (r_src r2) n). cbn in *. subst. split; [reflexivity|].
  unfold same_reader. cbn. auto.
Qed.
Lemma split_bump m : split_independent (r_bump m).
Proof.
  intros r1 r2 H. pose proof H as (H1 & H2 & H3 & H4 & H5). unfold r_bump. rewrite H2.
  destruct (ck m 64 (r_count r2 + 1)); cbn [fst snd]; (split; [reflexivity|]); try exact H.
  unfold same_reader. cbn. auto.
Qed.
Lemma split_unprotect t maj min f : split_independent (fun r => (unprotect t maj min f r, r)).
Proof.
  intros r1 r2 H. pose proof H as (H1 & H2 & H3 & H4 & H5). cbn. split; [|exact H].
  unfold unprotect. rewrite H1, H2, H4. reflexivity.
Qed.
Lemma split_read_record m : split_independent (read_record m).
Proof.
  unfold read_record. apply split_bind; [apply split_read|]. intros ty.
  destruct (from_code _ _ _); [|apply split_fail].
  apply split_bind; [apply split_read|]. intros maj. apply split_bind; [apply split_read|]. intros min.
  apply split_bind; [apply split_read|]. intros len. destruct (ENC_RECORD_MAX_LEN <? be_val len); [apply split_fail|].
  apply split_bind; [apply split_read|]. intros f. apply split_bind; [apply split_unprotect|]. intros rec.
  apply split_bind; [apply split_bump|]. intros _. apply split_ret.
Qed.
Lemma split_handle rec : split_independent (handle_record rec).
Proof.
  unfold handle_record. destruct (rc_type rec).
  - destruct (rc_fragment rec) as [|b [|]]; try destruct (b2z b =? 1); try apply split_fail; apply split_ret.
  - destruct (rc_fragment rec) as [|l [|d ?]]; try apply split_fail.
    destruct (from_code alert_level_code alert_level_all (b2z l)), (from_code alert_desc_code alert_desc_all (b2z d));
      try apply split_fail; apply split_ret.
  - destruct (rc_fragment rec) as [|b f]; [apply split_fail|].
    apply split_bind; [|intros _; apply split_bind; [|intros o; apply split_ret]].
    + intros r1 r2 H. cbn. split; [reflexivity|]. destruct H as (H1 & H2 & H3 & H4 & H5). unfold same_reader. cbn. rewrite H3. auto.
    + intros r1 r2 H. pose proof H as (H1 & H2 & H3 & H4 & H5). unfold r_get_message. rewrite H3.
      destruct (get_message (r_buf r2)). cbn. split; [reflexivity|]. unfold same_reader. cbn. auto.
  - apply split_ret.
Qed.
Lemma split_pull m : split_independent (pull m).
Proof.
  intros r1. induction r1 as [r1 IH] using (pull_ind m). intros r2 H. rewrite !pull_eq. unfold mbind.
  destruct (split_read_record m r1 r2 H) as [E S].
  destruct (read_record m r1) as [y1 s1] eqn:E1, (read_record m r2) as [y2 s2]. cbn in E, S. subst y2.
  destruct y1 as [rec| | |]; auto.
  destruct (split_handle rec s1 s2 S) as [F T].
  destruct (handle_record rec s1) as [z1 u1] eqn:F1, (handle_record rec s2) as [z2 u2]. cbn in F, T. subst z2.
  destruct z1 as [[msg|]| | |]; auto. eapply IH; eauto.
Qed.
Lemma split_read_message m : split_independent (read_message m).
Proof.
  intros r1 r2 H. rewrite !read_message_eq. pose proof H as (H1 & H2 & H3 & H4 & H5). rewrite H3.
  destruct (get_message (r_buf r2)) as [[[h|]| | |] b]; cbn [fst snd];
    try (split; [reflexivity|apply same_reader_buf; exact H]).
  apply split_pull. apply same_reader_buf. exact H.
Qed.
Lemma split_read_application_data m : split_independent (read_application_data m).
Proof.
  intros r1 r2 H. unfold read_application_data. pose proof H as (H1 & _). rewrite H1. destruct (r_dec r2); [|auto].
  revert r1 r2 H H1. intros r1 r2 H _. apply split_bind; [apply split_read_message| |exact H].
  intros [h| |[lv ds]|d']; try apply split_fail; try apply split_ret. destruct ds; try apply split_fail; apply split_ret.
Qed.
Lemma split_read_handshake m : split_independent (read_handshake m).
Proof.
  apply split_bind; [apply split_read_message|]. intros [h| |a|d]; try apply split_fail; apply split_ret.
Qed.
Lemma split_read_ccs m : split_independent (read_change_cipher_spec m).
Proof.
  apply split_bind; [apply split_read_message|]. intros [h| |a|d]; try apply split_fail; apply split_ret.
Qed.
Lemma split_reads {A} (act : M reader A) n : split_independent act ->
  forall r1 r2, same_reader r1 r2 -> fst (reads act n r1) = fst (reads act n r2).
Proof.
  intros Ha. induction n as [|n IH]; intros r1 r2 H; [reflexivity|]. cbn [reads].
  destruct (Ha r1 r2 H) as [E S]. destruct (act r1) as [y1 s1], (act r2) as [y2 s2]. cbn in E, S. subst y2.
  specialize (IH s1 s2 S). destruct y1; try reflexivity; destruct (reads act n s1), (reads act n s2); cbn in *; congruence.
Qed.

(** ** C23 *)
Lemma rfc_nonce_length iv k : length iv = 12%nat -> length (rfc_nonce iv k) = 12%nat.
Proof. intros H. unfold rfc_nonce. rewrite xor_zip_length, be_length, H. reflexivity. Qed.
(** keys and sequence number unchanged, transport only consumed *)
Definition quiet (r r' : reader) : Prop :=
  r_dec r' = r_dec r /\ r_count r' = r_count r /\ r_iv r' = r_iv r /\
  exists p, all_bytes (r_src r) = p ++ all_bytes (r_src r').
Lemma quiet_refl r : quiet r r.
Proof. repeat split. exists []. reflexivity. Qed.
Lemma quiet_only_src r r' : only_src r r' -> quiet r r'.
Proof. intros (E & _ & p & P). rewrite E in *. unfold quiet. cbn in *. eauto 6. Qed.
Lemma quiet_handle rec r x r' : handle_record rec r = (x, r') -> quiet r r'.
Proof. intros H. destruct (handle_src _ _ _ _ H) as (S & D & C & V). unfold quiet. rewrite S, D, C, V. repeat split. exists []. reflexivity. Qed.

Inductive absorbs (m : mode) : reader -> list record -> reader -> Prop :=
| Ab_nil r : absorbs m r [] r
| Ab_quiet r r1 recs r2 : quiet r r1 -> absorbs m r1 recs r2 -> absorbs m r recs r2
| Ab_rec r rec r1 recs r2 : read_record m r = (Ok rec, r1) -> absorbs m r1 recs r2 -> absorbs m r (rec :: recs) r2.
Lemma absorbs_app m r a r1 b r2 : absorbs m r a r1 -> absorbs m r1 b r2 -> absorbs m r (a ++ b) r2.
Proof. induction 1; intros H2; cbn; [exact H2|eapply Ab_quiet; eauto|eapply Ab_rec; eauto]. Qed.
Lemma absorbs_dec m r recs r' : absorbs m r recs r' -> r_dec r' = r_dec r /\ r_iv r' = r_iv r.
Proof.
  induction 1 as [|r r1 recs r2 (Q1 & Q2 & Q3 & Q4) H [IH1 IH2]|r rec r1 recs r2 E H [IH1 IH2]]; [auto|split; congruence|].
  apply read_record_dec in E as [E1 E2]. split; congruence.
Qed.

Lemma forged_suffix d iv peer s s' p : all_bytes s = p ++ all_bytes s' -> forged d iv peer s' -> forged d iv peer s.
Proof.
  intros E (before & after & k & t & maj & min & c & q & H & R). exists (p ++ before), after, k, t, maj, min, c, q.
  split; [|exact R]. rewrite E, H, <- app_assoc. reflexivity.
Qed.

Lemma rfc_ad_inj k t maj min n k' t' maj' min' n' :
  rfc_ad k t maj min n = rfc_ad k' t' maj' min' n' -> 0 <= k < 2 ^ 64 -> 0 <= k' < 2 ^ 64 ->
  k = k' /\ t = t' /\ maj = maj' /\ min = min'.
Proof.
  unfold rfc_ad. intros E R R'. apply app_inj_length in E as [E1 E2]; [|rewrite !be_length; reflexivity].
  apply be_inj in E1; [|exact R|exact R']. split; [exact E1|].
  cbn [app] in E2. injection E2 as H1 H2 H3 _.
  split; [destruct t, t'; try reflexivity; discriminate H1|auto].
Qed.

Lemma produced_dec e d iv peer k t maj min c : opens e d -> length iv = 12%nat -> sealed_by e iv peer -> zlen peer < 2 ^ 64 ->
  (k <= length peer)%nat ->
  (exists rec, nth_error peer k = Some (rec, c) /\ rc_type rec = t /\ rc_major rec = maj /\ rc_minor rec = min /\
     zlen (rc_fragment rec) = zlen c - dc_mac_len d) \/
  ~ produced iv peer (rfc_nonce iv (Z.of_nat k)) (rfc_ad (Z.of_nat k) t maj min (zlen c - dc_mac_len d)) c.
Proof.
  intros O Liv SB LP K. unfold zlen in LP.
  destruct (nth_error peer k) as [[[t0 maj0 min0 f0] c0]|] eqn:E.
  - destruct (list_eq_dec Byte.byte_eq_dec c0 c) as [->|N].
    + destruct (SB k _ _ E) as [LF SE]. cbn [rc_fragment rc_type rc_major rc_minor] in *.
      destruct (opens_use _ _ _ _ _ _ O SE) as [Lc _]; [apply rfc_nonce_length; assumption|apply rfc_ad_length|exact LF|].
      assert (Dt : {t0 = t} + {t0 <> t}) by decide equality.
      destruct Dt as [Et0|N]; [destruct (Byte.byte_eq_dec maj0 maj) as [Ema0|N]; [destruct (Byte.byte_eq_dec min0 min) as [Emi0|N]|]|].
      * left. eexists. split; [reflexivity|]. cbn. split; [exact Et0|]. split; [exact Ema0|]. split; [exact Emi0|]. lia.
      * right. intros (k' & rec & E' & _ & EA). assert ((k' < length peer)%nat) by (apply nth_error_Some; congruence).
        apply rfc_ad_inj in EA as (Ek & Et & Ema & Emi); try lia. apply Nat2Z.inj in Ek. subst k'.
        assert (Hr : rec = Rec t0 maj0 min0 f0) by congruence. rewrite Hr in *. cbn [rc_type rc_major rc_minor] in *. congruence.
      * right. intros (k' & rec & E' & _ & EA). assert ((k' < length peer)%nat) by (apply nth_error_Some; congruence).
        apply rfc_ad_inj in EA as (Ek & Et & Ema & Emi); try lia. apply Nat2Z.inj in Ek. subst k'.
        assert (Hr : rec = Rec t0 maj0 min0 f0) by congruence. rewrite Hr in *. cbn [rc_type rc_major rc_minor] in *. congruence.
      * right. intros (k' & rec & E' & _ & EA). assert ((k' < length peer)%nat) by (apply nth_error_Some; congruence).
        apply rfc_ad_inj in EA as (Ek & Et & Ema & Emi); try lia. apply Nat2Z.inj in Ek. subst k'.
        assert (Hr : rec = Rec t0 maj0 min0 f0) by congruence. rewrite Hr in *. cbn [rc_type rc_major rc_minor] in *. congruence.
    + right. intros (k' & rec & E' & _ & EA). assert ((k' < length peer)%nat) by (apply nth_error_Some; congruence).
      apply rfc_ad_inj in EA as (Ek & _); try lia. apply Nat2Z.inj in Ek. subst k'.
      rewrite E in E'. inversion E'; subst. congruence.
  - right. intros (k' & rec & E' & _ & EA). assert ((k' < length peer)%nat) by (apply nth_error_Some; congruence).
    apply rfc_ad_inj in EA as (Ek & _); try lia. apply Nat2Z.inj in Ek. subst k'. congruence.
Qed.

Lemma absorbs_genuine m e d iv peer r recs r' :
  opens e d -> length iv = 12%nat -> sealed_by e iv peer -> zlen peer < 2 ^ 64 ->
  absorbs m r recs r' -> forall k, r_dec r = Some d -> r_iv r = Some iv -> r_count r = Z.of_nat k -> (k <= length peer)%nat ->
  forged d iv peer (r_src r) \/
  (exists rest, skipn k (map fst peer) = recs ++ rest) /\ r_count r' = Z.of_nat (k + length recs) /\ (k + length recs <= length peer)%nat.
Proof.
  intros O Liv SB LP. induction 1 as [r|r r1 recs r2 (Q1 & Q2 & Q3 & p & P) H IH|r rec r1 recs r2 E H IH]; intros k D V C K.
  - right. split; [eexists; reflexivity|]. rewrite Nat.add_0_r. auto.
  - destruct (IH k) as [F|R]; try congruence; [left; eapply forged_suffix; eassumption|right; exact R].
  - pose proof (read_record_dec _ _ _ _ E) as [D1 V1].
    apply read_record_inv in E as (t & maj & min & frag & f & c & Hrec & Lf & Lfrag & A & _ & U & Ck & R1).
    unfold unprotect in U. rewrite D, V, C, seq_ad_rfc in U.
    rewrite seq_nonce_rfc in U by (unfold zlen in LP; lia || assumption).
    destruct (zlen frag <? dc_mac_len d); [discriminate|].
    destruct (dc_decrypt d (rfc_nonce iv (Z.of_nat k)) frag (rfc_ad (Z.of_nat k) t maj min (zlen frag - dc_mac_len d))) as [p| | |] eqn:ED; try discriminate.
    cbn [rbind] in U.
    destruct (produced_dec e d iv peer k t maj min frag O Liv SB LP K) as [([t0 maj0 min0 f0] & NE & Ht & Hma & Hmi & Hl)|NP].
    + cbn in Ht, Hma, Hmi, Hl. subst t0 maj0 min0.
      destruct (SB k _ _ NE) as [LF SE]. cbn [rc_fragment rc_type rc_major rc_minor] in *.
      destruct (opens_use _ _ _ _ _ _ O SE) as [_ DD]; [apply rfc_nonce_length; assumption|apply rfc_ad_length|exact LF|].
      rewrite Hl, ED in DD. inversion DD; subst p.
      assert (Hf : rec = Rec t maj min f0).
      { unfold record_new in U. destruct (RECORD_MAX_LEN <? zlen f0); [discriminate|]. inversion U. reflexivity. }
      assert (K1 : (k < length peer)%nat) by (apply nth_error_Some; congruence).
      destruct (IH (S k)) as [F|((rest & R) & C2 & L2)]; try congruence.
      * rewrite R1. cbn [r_count set_count]. unfold zlen in LP. rewrite C, ck_ok in Ck by lia. inversion Ck. lia.
      * lia.
      * left. eapply forged_suffix; [|exact F]. exact A.
      * right. split; [|split; [rewrite C2; cbn [length]; lia|cbn [length]; lia]].
        exists rest. rewrite <- app_comm_cons, <- R, Hf.
        assert (NE' : nth_error (map fst peer) k = Some (Rec t maj min f0)) by (rewrite nth_error_map, NE; reflexivity).
        clear - NE'. revert NE'. generalize (map fst peer) as l. induction k as [|k IHk]; intros [|a l] NE; try discriminate NE.
        -- inversion NE. reflexivity.
        -- exact (IHk l NE).
    + left. exists [], (all_bytes (r_src r1)), (Z.of_nat k), t, maj, min, frag, p.
      split; [exact A|]. split; [exact Lfrag|]. split; [unfold zlen in LP; lia|]. auto.
Qed.

Lemma reads_absorbs_records m n : forall r, exists r', absorbs m r (oks (fst (reads (read_record m) n r))) r'.
Proof.
  induction n as [|n IH]; intros r; [exists r; constructor|]. cbn [reads].
  destruct (read_record m r) as [x r1] eqn:E.
  assert (Q : (forall rec, x <> Ok rec) -> quiet r r1) by (intros; eapply quiet_only_src, read_record_fail; eassumption).
  destruct (IH r1) as [r2 H]. destruct (reads (read_record m) n r1) as [xs r3]. cbn [fst] in *.
  destruct x as [rec|k| |]; cbn [oks fst].
  - exists r2. eapply Ab_rec; eassumption.
  - exists r2. eapply Ab_quiet; [apply Q; discriminate|exact H].
  - exists r1. eapply Ab_quiet; [apply Q; discriminate|constructor].
  - exists r1. eapply Ab_quiet; [apply Q; discriminate|constructor].
Qed.

Lemma records_genuine m e d iv peer n r :
  opens e d -> length iv = 12%nat -> sealed_by e iv peer -> zlen peer < 2 ^ 64 ->
  r_dec r = Some d -> r_iv r = Some iv -> r_count r = 0 ->
  forged d iv peer (r_src r) \/ exists rest, map fst peer = oks (fst (reads (read_record m) n r)) ++ rest.
Proof.
  intros O Liv SB LP D V C. destruct (reads_absorbs_records m n r) as [r' H].
  destruct (absorbs_genuine m e d iv peer r _ r' O Liv SB LP H 0%nat D V C) as [F|((rest & R) & _)]; [lia|left; exact F|].
  right. exists rest. exact R.
Qed.

Lemma app_bytes_app a b : app_bytes (a ++ b) = app_bytes a ++ app_bytes b.
Proof. unfold app_bytes. rewrite filter_app, map_app, concat_app. reflexivity. Qed.

(** the application data a [read_message] took off the wire *)
Definition message_data (x : res message) : bytes := match x with Ok (ApplicationDataMessage d) => d | _ => [] end.
Lemma handle_data rec r x r' : handle_record rec r = (x, r') ->
  app_bytes [rec] = match x with Ok (Some msg) => message_data (Ok msg) | _ => [] end.
Proof.
  unfold handle_record, app_bytes, is_app. destruct rec as [t maj min f]. cbn [rc_type rc_fragment filter map].
  destruct t; cbn [content_type_beq filter map concat rc_fragment].
  - destruct f as [|b [|]]; try destruct (b2z b =? 1); intros H; inversion H; subst; reflexivity.
  - destruct f as [|l [|d ?]];
      [| |destruct (from_code alert_level_code alert_level_all (b2z l)), (from_code alert_desc_code alert_desc_all (b2z d))];
      intros H; inversion H; subst; reflexivity.
  - destruct f as [|b f]; [intros H; inversion H; subst; reflexivity|].
    unfold mbind, r_add_record, r_get_message, mret. cbn [r_buf].
    destruct (get_message _) as [[[o|]| | |] b'] eqn:E; intros H; inversion H; subst; reflexivity.
  - intros H. inversion H; subst. cbn. apply app_nil_r.
Qed.
Lemma pull_absorbs m : forall r, exists recs, absorbs m r recs (snd (pull m r)) /\ app_bytes recs = message_data (fst (pull m r)).
Proof.
  intros r. induction r as [r IH] using (pull_ind m). rewrite pull_eq. unfold mbind.
  destruct (read_record m r) as [x r1] eqn:E.
  assert (Q : (forall rec, x <> Ok rec) -> quiet r r1) by (intros; eapply quiet_only_src, read_record_fail; eassumption).
  destruct x as [rec|k| |];
    try (exists []; split; [eapply Ab_quiet; [apply Q; discriminate|constructor]|reflexivity]).
  destruct (handle_record rec r1) as [y r2] eqn:F.
  pose proof (quiet_handle _ _ _ _ F) as QH. pose proof (handle_data _ _ _ _ F) as HD.
  destruct y as [[msg|]|k| |];
    try (exists [rec]; split; [eapply Ab_rec; [exact E|]; eapply Ab_quiet; [exact QH|constructor]|exact HD]).
  destruct (IH rec r1 r2 eq_refl F) as (recs & Ab & Hd). exists (rec :: recs). split.
  - eapply Ab_rec; [exact E|]. eapply Ab_quiet; [exact QH|exact Ab].
  - change (rec :: recs) with ([rec] ++ recs). rewrite app_bytes_app, HD, Hd. reflexivity.
Qed.
Lemma quiet_set_buf r b : quiet r (set_buf r b).
Proof. repeat split. exists []. reflexivity. Qed.
Lemma read_message_absorbs m r : exists recs, absorbs m r recs (snd (read_message m r)) /\
  app_bytes recs = message_data (fst (read_message m r)).
Proof.
  rewrite read_message_eq. destruct (get_message (r_buf r)) as [[[h|]| | |] b];
    try (exists []; split; [eapply Ab_quiet; [apply quiet_set_buf|constructor]|reflexivity]).
  destruct (pull_absorbs m (set_buf r b)) as (recs & Ab & Hd). exists recs. split; [|exact Hd].
  eapply Ab_quiet; [apply quiet_set_buf|exact Ab].
Qed.
Lemma read_app_absorbs m r : exists recs, absorbs m r recs (snd (read_application_data m r)) /\
  app_bytes recs = match fst (read_application_data m r) with Ok d => d | _ => [] end.
Proof.
  unfold read_application_data. destruct (r_dec r); [|exists []; split; [constructor|reflexivity]].
  destruct (read_message_absorbs m r) as (recs & Ab & Hd). exists recs. unfold mbind.
  destruct (read_message m r) as [[[h| |[lv ds]|dd]| | |] r1]; cbn [fst snd message_data mret mfail] in *; try (split; [exact Ab|exact Hd]).
  destruct ds; cbn [fst snd mret mfail] in *; (split; [exact Ab|exact Hd]).
Qed.
Lemma reads_absorbs_app m n : forall r, exists recs r', absorbs m r recs r' /\
  app_bytes recs = concat (oks (fst (reads (read_application_data m) n r))).
Proof.
  induction n as [|n IH]; intros r; [exists [], r; split; [constructor|reflexivity]|]. cbn [reads].
  destruct (read_app_absorbs m r) as (recs & Ab & Hd).
  destruct (read_application_data m r) as [x r1]. cbn [fst snd] in *.
  destruct (IH r1) as (recs2 & r2 & Ab2 & Hd2). destruct (reads (read_application_data m) n r1) as [xs r3]. cbn [fst] in *.
  destruct x as [dd|k| |]; cbn [oks fst concat].
  - exists (recs ++ recs2), r2. split; [eapply absorbs_app; eassumption|]. rewrite app_bytes_app, Hd, Hd2. reflexivity.
  - exists (recs ++ recs2), r2. split; [eapply absorbs_app; eassumption|]. rewrite app_bytes_app, Hd, Hd2. reflexivity.
  - exists recs, r1. auto.
  - exists recs, r1. auto.
Qed.

Lemma app_data_genuine m e d iv peer n r :
  opens e d -> length iv = 12%nat -> sealed_by e iv peer -> zlen peer < 2 ^ 64 ->
  r_dec r = Some d -> r_iv r = Some iv -> r_count r = 0 ->
  forged d iv peer (r_src r) \/
  exists rest, app_bytes (map fst peer) = concat (oks (fst (reads (read_application_data m) n r))) ++ rest.
Proof.
  intros O Liv SB LP D V C. destruct (reads_absorbs_app m n r) as (recs & r' & H & Hd).
  destruct (absorbs_genuine m e d iv peer r _ r' O Liv SB LP H 0%nat D V C) as [F|((rest & R) & _)]; [lia|left; exact F|].
  right. exists (app_bytes rest). cbn [skipn] in R. rewrite R, app_bytes_app, Hd. reflexivity.
Qed.

(** ** C24 *)
(** part of a handshake message received in the clear survives the change of cipher *)
Lemma straddle m e d iv v a b c k s :
  opens e d -> 0 <= dc_mac_len d <= 2048 -> length iv = 12%nat -> length v = 12%nat ->
  e_handshake (finished v) = a ++ b -> a <> [] -> b <> [] ->
  e (rfc_nonce iv 0) b (rfc_ad 0 HandshakeTy x03 x03 (zlen b)) = Ok c ->
  0 <= k -> k + 2 < 2 ^ 64 ->
  stream s = e_record HandshakeTy a ++ e_record ChangeCipherSpecTy [x01] ++ e_record HandshakeTy c ->
  fst ((do* _ := read_change_cipher_spec m in do* _ := r_set_decryptor d in read_handshake m)
         (Reader s None k [] (Some iv))) = Ok (finished v).
Proof.
  intros O M Liv Lv E Ha Hb EC K K' S.
  assert (LE : zlen a + zlen b = 16).
  { rewrite <- zlen_app, <- E. unfold e_handshake, sp_vec, zlen. cbn [e_hs_body]. rewrite !app_length, be_length, Lv. reflexivity. }
  assert (W : wf_handshake (finished v)) by (split; [exact Lv|unfold zlen; cbn [e_hs_body]; rewrite Lv; reflexivity]).
  pose proof (zlen_nonneg a). pose proof (zlen_nonneg b).
  assert (LA : 1 <= zlen a) by (destruct a as [|a0 a]; [contradiction|rewrite zlen_cons; pose proof (zlen_nonneg a); lia]).
  assert (LB : 1 <= zlen b) by (destruct b as [|b0 b]; [contradiction|rewrite zlen_cons; pose proof (zlen_nonneg b); lia]).
  set (r := Reader s None k [] (Some iv)).
  destruct (wire_step m r HandshakeTy x03 x03 a a _ S) as (s1 & S1 & _ & R1); try lia; [reflexivity|exact K|cbn [r_count r]; lia|].
  set (r1 := set_count (set_src r s1) (r_count r + 1)) in *.
  assert (G1 : get_message a = (Ok None, a)) by (eapply get_message_prefix; eassumption).
  set (r1' := set_buf r1 a).
  destruct (wire_step m r1' ChangeCipherSpecTy x03 x03 [x01] [x01] _ S1) as (s2 & S2 & _ & R2);
    [reflexivity|cbn; lia|cbn; lia|cbn; lia|cbn; lia|].
  set (r2 := set_count (set_src r1' s2) (r_count r1' + 1)) in *.
  set (r3 := Reader s2 (Some d) 0 a (Some iv)).
  destruct (opens_use _ _ _ _ _ _ O EC) as [Lc DD]; [apply rfc_nonce_length; assumption|apply rfc_ad_length|lia|].
  rewrite <- (app_nil_r (e_record HandshakeTy c)) in S2.
  destruct (wire_step m r3 HandshakeTy x03 x03 b c [] S2) as (s3 & S3 & _ & R3); [|lia|lia|cbn; lia|cbn; lia|].
  { cbn [r3 r_dec r_iv r_count carried]. rewrite seq_nonce_rfc by (lia || assumption).
    split; [lia|]. replace (zlen c - dc_mac_len d) with (zlen b) by lia. exact DD. }
  assert (RC : read_change_cipher_spec m r = (Ok tt, r2)).
  { unfold read_change_cipher_spec, mbind. rewrite read_message_eq. change (r_buf r) with (@nil byte).
    rewrite buf_short by reflexivity. change (set_buf r []) with r.
    rewrite pull_eq. unfold mbind at 1. rewrite R1. unfold mbind at 1.
    change (Rec HandshakeTy x03 x03 a) with (hs_rec x03 x03 a). rewrite handle_hs by exact Ha.
    change (r_buf r1 ++ a) with a. rewrite G1. cbn [option_map]. fold r1'.
    rewrite pull_eq. unfold mbind at 1. rewrite R2. reflexivity. }
  unfold mbind at 1. rewrite RC. unfold mbind at 1. cbn [r_set_decryptor r_dec r2 set_count set_src r1' set_buf r1 r].
  change (fst (read_handshake m r3) = Ok (finished v)).
  unfold read_handshake, mbind. rewrite read_message_eq. change (r_buf r3) with a. rewrite G1. change (set_buf r3 a) with r3.
  rewrite pull_eq. unfold mbind at 1. rewrite R3. unfold mbind at 1.
  change (Rec HandshakeTy x03 x03 b) with (hs_rec x03 x03 b). rewrite handle_hs by exact Hb. cbn [set_count set_src r3 r_buf].
  rewrite <- E, <- (app_nil_r (e_handshake _)), get_message_enc by exact W. reflexivity.
Qed.

Lemma get_message_none b b' : get_message b = (Ok None, b') -> b' = b.
Proof.
  destruct (buffer_cases b) as [H|[(ty & n & body & R & L & ->)|(ty & n & body & rest & R & L & ->)]].
  - rewrite get_message_short by exact H. intros E; inversion E; reflexivity.
  - rewrite get_message_incomplete by assumption. intros E; inversion E; reflexivity.
  - change (ty :: be 3 n ++ body ++ rest) with ((ty :: be 3 n ++ body ++ rest)).
    rewrite get_message_framed by assumption. destruct (hs_read _) as [[? ?]| | |]; discriminate.
Qed.

(** what a handshake message is made of: the buffer first, then handshake records as the reader opens them *)
Lemma pull_from m : forall r h r', pull m r = (Ok (HandshakeMessage h), r') ->
  exists recs, absorbs m r recs r' /\ Forall (fun rec => rc_type rec = HandshakeTy) recs /\
    exists body, r_buf r ++ concat (map rc_fragment recs) = ([z2b (hs_type h)] ++ sp_vec 3 body) ++ r_buf r' /\
      hs_read_ty (hs_type h) body = Ok (h, []).
Proof.
  intros r. induction r as [r IH] using (pull_ind m). intros h r'. rewrite pull_eq. unfold mbind.
  destruct (read_record m r) as [[rec|k| |] r1] eqn:E; try discriminate.
  assert (HB : r_buf r1 = r_buf r).
  { apply (yields_same_buf m r [rec]). econstructor; [exact E|constructor]. }
  destruct (handle_record rec r1) as [[[msg|]|k| |] r2] eqn:F; try discriminate.
  - intros H. inversion H; subst msg r2. clear H. pose proof (quiet_handle _ _ _ _ F) as QH.
    unfold handle_record in F. destruct rec as [t maj min f]. cbn [rc_type rc_fragment] in F. destruct t.
    + destruct f as [|b [|]]; try destruct (b2z b =? 1); inversion F.
    + destruct f as [|l [|dd ?]];
      [| |destruct (from_code alert_level_code alert_level_all (b2z l)), (from_code alert_desc_code alert_desc_all (b2z dd))]; inversion F.
    + change (handle_record (hs_rec maj min f) r1 = (Ok (Some (HandshakeMessage h)), r')) in F.
      destruct f as [|y f]; [discriminate F|]. rewrite handle_hs in F by discriminate. rewrite HB in F.
      destruct (get_message (r_buf r ++ y :: f)) as [[[h0|]| | |] b] eqn:G; try discriminate F.
      cbn [option_map] in F. inversion F; subst h0 r'.
      exists [Rec HandshakeTy maj min (y :: f)]. split; [eapply Ab_rec; [exact E|]; eapply Ab_quiet; [exact QH|constructor]|].
      split; [repeat constructor|]. cbn [map rc_fragment concat]. rewrite app_nil_r. cbn [r_buf set_buf].
      destruct (get_message_inv _ _ _ G) as (x & _ & Hx & Hg). exists x. auto.
    + inversion F.
  - intros H. destruct (IH rec r1 r2 eq_refl F h r' H) as (recs & Ab & Hs & x & Hx & Hg).
    pose proof (quiet_handle _ _ _ _ F) as QH.
    unfold handle_record in F. destruct rec as [t maj min f]. cbn [rc_type rc_fragment] in F. destruct t.
    + destruct f as [|b [|]]; try destruct (b2z b =? 1); inversion F.
    + destruct f as [|l [|dd ?]];
      [| |destruct (from_code alert_level_code alert_level_all (b2z l)), (from_code alert_desc_code alert_desc_all (b2z dd))]; inversion F.
    + change (handle_record (hs_rec maj min f) r1 = (Ok None, r2)) in F.
      destruct f as [|y f]; [discriminate F|]. rewrite handle_hs in F by discriminate. rewrite HB in F.
      destruct (get_message (r_buf r ++ y :: f)) as [[[h0|]| | |] b] eqn:G; try discriminate F.
      cbn [option_map] in F. inversion F; subst r2.
      exists (Rec HandshakeTy maj min (y :: f) :: recs).
      split; [eapply Ab_rec; [exact E|]; eapply Ab_quiet; [exact QH|exact Ab]|].
      split; [constructor; [reflexivity|exact Hs]|]. exists x. split; [|exact Hg].
      cbn [map rc_fragment concat]. rewrite app_assoc. cbn [r_buf set_buf] in Hx.
      rewrite <- (get_message_none _ _ G). exact Hx.
    + inversion F.
Qed.

Lemma read_message_from m r h r' : no_pending r -> read_message m r = (Ok (HandshakeMessage h), r') ->
  exists recs, absorbs m r recs r' /\ Forall (fun rec => rc_type rec = HandshakeTy) recs /\
    exists body, r_buf r ++ concat (map rc_fragment recs) = ([z2b (hs_type h)] ++ sp_vec 3 body) ++ r_buf r' /\
      hs_read_ty (hs_type h) body = Ok (h, []).
Proof. intros N. rewrite read_message_eq, N, set_buf_id. apply pull_from. Qed.

Lemma zlen_wire t maj min c : zlen (wire t maj min c) = 5 + zlen c.
Proof. unfold wire. rewrite !zlen_app. unfold zlen at 1 2. rewrite be_length. cbn [length]. lia. Qed.

Lemma opened_skip d iv k p w recs : opened d iv k w recs -> opened d iv k (p ++ w) recs.
Proof. destruct 1; [constructor|]. rewrite app_assoc. econstructor; eassumption. Qed.

Lemma absorbs_opened m d iv r recs r' : absorbs m r recs r' -> r_dec r = Some d -> r_iv r = Some iv -> length iv = 12%nat ->
  0 <= r_count r -> r_count r + zlen (all_bytes (r_src r)) < 2 ^ 64 ->
  opened d iv (r_count r) (all_bytes (r_src r)) recs.
Proof.
  induction 1 as [r|r r1 recs r2 (Q1 & Q2 & Q3 & p & P) H IH|r rec r1 recs r2 E H IH]; intros D V Liv C0 C.
  - constructor.
  - rewrite P. apply opened_skip. rewrite <- Q2. rewrite P, zlen_app in C. pose proof (zlen_nonneg p).
    apply IH; try congruence; rewrite Q2; lia.
  - pose proof (read_record_dec _ _ _ _ E) as [D1 V1].
    apply read_record_inv in E as (t & maj & min & frag & f & c & Hrec & Lf & Lfrag & A & _ & U & Ck & R1).
    rewrite A, zlen_app, zlen_wire in C. pose proof (zlen_nonneg frag). pose proof (zlen_nonneg (all_bytes (r_src r1))).
    rewrite ck_ok in Ck by lia. assert (C1 : r_count r1 = r_count r + 1) by (rewrite R1; cbn [set_count r_count]; congruence).
    unfold unprotect in U. rewrite D, V, seq_ad_rfc in U. rewrite seq_nonce_rfc in U by (lia || assumption).
    destruct (zlen frag <? dc_mac_len d); [discriminate|].
    destruct (dc_decrypt d (rfc_nonce iv (r_count r)) frag (rfc_ad (r_count r) t maj min (zlen frag - dc_mac_len d))) as [p| | |] eqn:ED; try discriminate.
    cbn [rbind] in U. unfold record_new in U. destruct (RECORD_MAX_LEN <? zlen p); [discriminate|]. inversion U as [U1].
    rewrite A. apply (Opened_cons d iv (r_count r) [] t maj min frag p _ recs ED). rewrite <- C1. apply IH; try congruence; lia.
Qed.

Lemma finished_from_sealed m d iv r h r' : r_dec r = Some d -> r_iv r = Some iv -> length iv = 12%nat ->
  0 <= r_count r -> r_count r + zlen (all_bytes (r_src r)) < 2 ^ 64 ->
  r_buf r = [] -> read_handshake m r = (Ok h, r') ->
  exists recs body, opened d iv (r_count r) (all_bytes (r_src r)) recs /\
    Forall (fun rec => rc_type rec = HandshakeTy) recs /\
    concat (map rc_fragment recs) = ([z2b (hs_type h)] ++ sp_vec 3 body) ++ r_buf r' /\
    hs_read_ty (hs_type h) body = Ok (h, []).
Proof.
  intros D V Liv C0 C B R. unfold read_handshake, mbind in R.
  destruct (read_message m r) as [[[h0| |a|dd]| | |] r1] eqn:E; try discriminate R. inversion R; subst h0 r1.
  apply read_message_from in E as (recs & Ab & T & body & Hb & Hr).
  - exists recs, body. rewrite B in Hb. split; [eapply absorbs_opened; eassumption|]. auto.
  - unfold no_pending. rewrite B. apply buf_short. reflexivity.
Qed.

(** ** Histories of the writer are peers in the sense of [sealed_by] *)
Lemma build_list {A B} (P : nat -> A -> B -> Prop) (l : list A) : forall k0,
  (forall k a, nth_error l k = Some a -> exists b, P (k0 + k)%nat a b) ->
  exists bs, length bs = length l /\ forall k a b, nth_error l k = Some a -> nth_error bs k = Some b -> P (k0 + k)%nat a b.
Proof.
  induction l as [|a l IH]; intros k0 H.
  - exists []. split; [reflexivity|]. intros [|k] a b Ha; discriminate Ha.
  - destruct (H 0%nat a eq_refl) as [b Hb]. destruct (IH (S k0)) as (bs & L & Hbs).
    + intros k a' Ha'. destruct (H (S k) a' Ha') as [b' Hb']. exists b'. replace (S k0 + k)%nat with (k0 + S k)%nat by lia. exact Hb'.
    + exists (b :: bs). split; [cbn; lia|]. intros [|k] a' b' Ha' Hb'; cbn in Ha', Hb'.
      * congruence.
      * replace (k0 + S k)%nat with (S k0 + k)%nat by lia. eapply Hbs; eassumption.
Qed.

Lemma history_sealed m ops e iv w : healthy w -> w_enc w = Some e -> w_iv w = Some iv -> length iv = 12%nat ->
  w_count w = 0 -> w_log w = [] ->
  let log := w_log (snd (run_ops m ops w)) in
  zlen log <= 2 ^ 64 ->
  exists peer, sealed_by e iv peer /\ map snd peer = map log_sealed log /\
    map (fun q => rc_fragment (fst q)) peer = map log_plain log.
Proof.
  intros Hh He Hi Liv Hc Hl log Hlen.
  destruct (ops_numbered m ops e iv w Hh He Hi Liv Hc Hl Hlen) as [Hn _].
  destruct (ops_sealed m ops e w He) as (log' & _ & _ & Hlog & Hby & _). fold log in Hlog, Hn.
  rewrite Hl in Hlog. cbn [app] in Hlog. rewrite <- Hlog in Hby. clear log' Hlog.
  pose proof (ops_plain m ops w) as Hp. fold log in Hp. specialize (Hp ltac:(congruence) Hl).
  set (P := fun k l (q : record * bytes) => snd q = log_sealed l /\ rc_fragment (fst q) = log_plain l /\
    zlen (rc_fragment (fst q)) <= 16384 + 2048 /\
    e (rfc_nonce iv (Z.of_nat k)) (rc_fragment (fst q))
      (rfc_ad (Z.of_nat k) (rc_type (fst q)) (rc_major (fst q)) (rc_minor (fst q)) (zlen (rc_fragment (fst q)))) = Ok (snd q)).
  destruct (build_list P log 0) as (peer & L & HP).
  { intros k l Hk. destruct (Hn k l Hk) as (N & t & maj & min & AD).
    rewrite Forall_forall in Hby, Hp. pose proof (nth_error_In _ _ Hk) as Hin. specialize (Hby l Hin). specialize (Hp l Hin).
    exists (Rec t maj min (log_plain l), log_sealed l). unfold P. cbn. split; [reflexivity|]. split; [reflexivity|].
    split; [unfold RECORD_MAX_LEN in Hp; lia|]. unfold logged_by in Hby. rewrite N, AD in Hby. exact Hby. }
  exists peer. split.
  { intros k rec c Hk. assert (Hl2 : (k < length log)%nat) by (rewrite <- L; apply nth_error_Some; congruence).
    destruct (nth_error log k) as [l|] eqn:El; [|apply nth_error_None in El; lia].
    destruct (HP k l (rec, c) El Hk) as (_ & _ & H1 & H2). cbn in H1, H2. auto. }
  clear - L HP. revert L HP. generalize 0%nat as k0. generalize log as lg. induction peer as [|q peer IH]; intros lg k0 L HP.
  - destruct lg; [split; reflexivity|discriminate].
  - destruct lg as [|l lg]; [discriminate|]. destruct (HP 0%nat l q eq_refl eq_refl) as (H1 & H2 & _).
    destruct (IH lg (S k0)) as [I1 I2].
    + cbn in L. lia.
    + intros k a b Ha Hb. replace (S k0 + k)%nat with (k0 + S k)%nat by lia. apply HP; assumption.
    + cbn [map]. split; f_equal; auto.
Qed.
