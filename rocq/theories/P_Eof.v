(** Proofs about src/client.rs: the end of the stream, as [read] shows it. *)
From Verif Require Import Spec_Client3 P_Util P_Codec P_RecordW P_RecordR P_Record P_Client P_Client2 P_App P_App2 P_App3 P_Client3 P_Client4.
From Coq Require Import ZifyBool ZifyNat ZifyN.
Local Open Scope list_scope.
Local Open Scope Z_scope.
#[local] Opaque SHA256 HMAC aead_seal aead_decrypt aead_encrypt compute_keys PRF nmul.

(** ** A record cut short *)
Lemma r_read_short r n : clean (r_src r) -> (length (stream (r_src r)) < n)%nat -> r_read n r = (Err IoFailure, set_src r []).
Proof.
  intros C L. unfold r_read. pose proof (fill_err _ _ L) as E. pose proof (fill_err_clean _ _ C L) as S.
  destruct (fill_exact (r_src r) n) as [x s]. cbn [fst snd] in E, S. subst. reflexivity.
Qed.
Lemma read_record_cut m r more t maj min f : clean (r_src r) -> stream (r_src r) ++ more = wire t maj min f -> more <> [] ->
  zlen f <= ENC_RECORD_MAX_LEN -> exists r', read_record m r = (Err IoFailure, r') /\ r_src r' = [] /\ r_dec r' = r_dec r /\ r_buf r' = r_buf r.
Proof.
  intros C E M HL.
  assert (Hv : be_val (be 2 (zlen f)) = zlen f).
  { pose proof (zlen_nonneg f). rewrite be_val_be. apply Z.mod_small. unfold ENC_RECORD_MAX_LEN in HL. change (256 ^ Z.of_nat 2) with 65536. lia. }
  unfold wire in E. remember (be 2 (zlen f)) as l2. assert (L2 : length l2 = 2%nat) by (subst l2; apply be_length). clear Heql2.
  destruct l2 as [|l1 [|l0 [|]]]; try discriminate L2. clear L2. cbn [app] in E.
  destruct (stream (r_src r)) as [|b1 [|b2 [|b3 st]]] eqn:S.
  - exists (set_src r []). unfold read_record, mbind at 1. rewrite (r_read_short r 1 C) by (rewrite S; cbn; lia). auto.
  - assert (X : b1 = z2b (rfc_content_type t)) by (cbn in E; congruence). subst b1.
    unfold read_record, mbind at 1. destruct (r_read_next r [z2b (rfc_content_type t)] [] 1 S eq_refl) as (s1 & F1 & G1 & C1). rewrite F1.
    replace (be_val [z2b (rfc_content_type t)]) with (rfc_content_type t)
      by (unfold be_val; cbn [be_val_acc]; rewrite b2z_z2b, Z.mod_small by apply ct_range; lia).
    change (from_code content_type_code content_type_all (rfc_content_type t)) with (from_ct (rfc_content_type t)). rewrite from_ct_code.
    unfold mbind at 1. rewrite (r_read_short (set_src r s1) 1 (C1 C)) by (cbn [set_src r_src]; rewrite G1; cbn; lia). eexists; split; [reflexivity|auto].
  - assert (X : b1 = z2b (rfc_content_type t)) by (cbn in E; congruence). subst b1.
    unfold read_record, mbind at 1. destruct (r_read_next r [z2b (rfc_content_type t)] [b2] 1 S eq_refl) as (s1 & F1 & G1 & C1). rewrite F1.
    replace (be_val [z2b (rfc_content_type t)]) with (rfc_content_type t)
      by (unfold be_val; cbn [be_val_acc]; rewrite b2z_z2b, Z.mod_small by apply ct_range; lia).
    change (from_code content_type_code content_type_all (rfc_content_type t)) with (from_ct (rfc_content_type t)). rewrite from_ct_code.
    unfold mbind at 1. destruct (r_read_next (set_src r s1) [b2] [] 1 G1 eq_refl) as (s2 & F2 & G2 & C2). rewrite F2.
    unfold mbind at 1. rewrite (r_read_short (set_src (set_src r s1) s2) 1 (C2 (C1 C))) by (cbn [set_src r_src]; rewrite G2; cbn; lia). eexists; split; [reflexivity|auto].
  - assert (X : b1 = z2b (rfc_content_type t)) by (cbn in E; congruence). subst b1.
    unfold read_record, mbind at 1. destruct (r_read_next r [z2b (rfc_content_type t)] (b2 :: b3 :: st) 1 S eq_refl) as (s1 & F1 & G1 & C1). rewrite F1.
    replace (be_val [z2b (rfc_content_type t)]) with (rfc_content_type t)
      by (unfold be_val; cbn [be_val_acc]; rewrite b2z_z2b, Z.mod_small by apply ct_range; lia).
    change (from_code content_type_code content_type_all (rfc_content_type t)) with (from_ct (rfc_content_type t)). rewrite from_ct_code.
    unfold mbind at 1. destruct (r_read_next (set_src r s1) [b2] (b3 :: st) 1 G1 eq_refl) as (s2 & F2 & G2 & C2). rewrite F2.
    unfold mbind at 1. destruct (r_read_next (set_src (set_src r s1) s2) [b3] st 1 G2 eq_refl) as (s3 & F3 & G3 & C3). rewrite F3.
    assert (E2 : st ++ more = l1 :: l0 :: f) by (cbn in E; congruence). clear E.
    unfold mbind at 1. destruct st as [|c1 [|c2 st]].
    + rewrite (r_read_short (set_src (set_src (set_src r s1) s2) s3) 2 (C3 (C2 (C1 C)))) by (cbn [set_src r_src]; rewrite G3; cbn; lia). eexists; split; [reflexivity|auto].
    + rewrite (r_read_short (set_src (set_src (set_src r s1) s2) s3) 2 (C3 (C2 (C1 C)))) by (cbn [set_src r_src]; rewrite G3; cbn; lia). eexists; split; [reflexivity|auto].
    + destruct (r_read_next (set_src (set_src (set_src r s1) s2) s3) [c1; c2] st 2 G3 eq_refl) as (s4 & F4 & G4 & C4). rewrite F4.
      assert (E3 : c1 = l1 /\ c2 = l0 /\ st ++ more = f) by (cbn in E2; inversion E2; auto). destruct E3 as (-> & -> & E3).
      rewrite Hv. replace (ENC_RECORD_MAX_LEN <? zlen f) with false by (symmetry; apply Z.ltb_ge; exact HL).
      unfold mbind at 1. rewrite (r_read_short (set_src (set_src (set_src (set_src r s1) s2) s3) s4) _ (C4 (C3 (C2 (C1 C))))).
      * eexists; split; [reflexivity|auto].
      * cbn [set_src r_src]. rewrite G4, <- E3. unfold zlen. rewrite app_length. destruct more; [congruence|]. cbn [length]. lia.
Qed.

(** ** What a reader still supplies *)
Definition dry (r : reader) : Prop := r_src r = [] /\ no_pending r /\ r_dec r <> None.
Lemma app_fails m r r' e : r_dec r <> None -> no_pending r -> read_record m r = (Err e, r') -> read_application_data m r = (Err e, r').
Proof.
  intros D NP E. unfold read_application_data, mbind. destruct (r_dec r); [|congruence]. rewrite read_message_eq, NP, set_buf_id, pull_eq. unfold mbind.
  rewrite E. reflexivity.
Qed.
Lemma dry_read m r : dry r -> exists r', read_application_data m r = (Err IoFailure, r') /\ dry r'.
Proof.
  intros (S & NP & D). exists (set_src r []). split; [|split; [reflexivity|split; [exact NP|exact D]]].
  apply app_fails; [exact D|exact NP|]. unfold read_record, mbind. rewrite (r_read_short r 1); [reflexivity|rewrite S; constructor|rewrite S; cbn; lia].
Qed.
Inductive supplies (m : mode) : reader -> bytes -> Prop :=
| Su_dry r : dry r -> supplies m r []
| Su_err r e r' : read_application_data m r = (Err e, r') -> dry r' -> supplies m r []
| Su_data r d r' D : read_application_data m r = (Ok d, r') -> supplies m r' D -> supplies m r (d ++ D).

Lemma take_take n (b D : bytes) : firstn n b ++ firstn (n - length b) (skipn n b ++ D) = firstn n (b ++ D) /\
  skipn (n - length b) (skipn n b ++ D) = skipn n (b ++ D).
Proof.
  rewrite (firstn_app n b D), (skipn_app n b D). destruct (Nat.le_gt_cases n (length b)) as [Le|Gt].
  - replace (n - length b)%nat with 0%nat by lia. split; reflexivity.
  - rewrite (skipn_all2 b) by lia. split; reflexivity.
Qed.
Lemma rd_supplies m len done c x c' : rd m len done c x c' -> forall D, supplies m (c_reader c) D ->
  x = Ok (done ++ firstn (len - length done) (c_buf c ++ D)) /\
  exists D', supplies m (c_reader c') D' /\ c_buf c' ++ D' = skipn (len - length done) (c_buf c ++ D).
Proof.
  induction 1 as [done c L|done c x c' L B R IH|done c d r' x c' L B E R IH|done c e r' L B E|done c r' L B E|done c r' L B E]; intros D HD.
  - replace (len - length done)%nat with 0%nat by lia. cbn [firstn skipn]. rewrite app_nil_r. eauto.
  - destruct (IH D HD) as (-> & D' & HD' & Q). cbn [with_buf c_buf c_reader] in *. 
    set (n := (len - length done)%nat) in *. rewrite app_length, firstn_length in *.
    assert (N : (len - (length done + Nat.min n (length (c_buf c))) = n - length (c_buf c))%nat) by (unfold n; lia). rewrite N in *.
    destruct (take_take n (c_buf c) D) as [T1 T2]. rewrite <- app_assoc, T1. split; [reflexivity|]. exists D'. rewrite <- T2. auto.
  - inversion HD as [r0 Dr|r0 e r1 E1 Dr|r0 d0 r1 D0 E1 HD1]; subst.
    + destruct (dry_read m _ Dr) as (r1 & E1 & _). congruence.
    + congruence.
    + rewrite E1 in E. apply pair_equal_spec in E as [E ->]. apply Ok_inj in E. subst d0.
      destruct (IH D0 HD1) as (-> & D' & HD' & Q). rewrite B. cbn [with_buf c_buf c_reader app] in *. 
      set (n := (len - length done)%nat) in *. rewrite app_length, firstn_length in *.
      assert (N : (len - (length done + Nat.min n (length d)) = n - length d)%nat) by (unfold n; lia). rewrite N in *.
      destruct (take_take n d D0) as [T1 T2]. rewrite <- app_assoc, T1. split; [reflexivity|]. exists D'. rewrite <- T2. auto.
  - inversion HD as [r0 Dr|r0 e1 r1 E1 Dr|r0 d0 r1 D0 E1 HD1]; subst.
    + destruct (dry_read m _ Dr) as (r1 & E1 & Dr1). rewrite E1 in E. inversion E; subst. rewrite B. cbn [app with_buf c_reader c_buf]. rewrite firstn_nil, skipn_nil, app_nil_r. split; [reflexivity|]. exists []. split; [constructor; exact Dr1|reflexivity].
    + rewrite E1 in E. inversion E; subst. rewrite B. cbn [app with_buf c_reader c_buf]. rewrite firstn_nil, skipn_nil, app_nil_r. split; [reflexivity|]. exists []. split; [constructor; exact Dr|reflexivity].
    + congruence.
  - exfalso. inversion HD as [r0 Dr|r0 e1 r1 E1 Dr|r0 d0 r1 D0 E1 HD1]; subst; try congruence. destruct (dry_read m _ Dr) as (r1 & E1 & _). congruence.
  - exfalso. inversion HD as [r0 Dr|r0 e1 r1 E1 Dr|r0 d0 r1 D0 E1 HD1]; subst; try congruence. destruct (dry_read m _ Dr) as (r1 & E1 & _). congruence.
Qed.
Lemma reads_supplied m : forall sizes c D, supplies m (c_reader c) D -> fst (client_reads m sizes c) = map Ok (pieces sizes (c_buf c ++ D)).
Proof.
  induction sizes as [|n sizes IH]; intros c D HD; [reflexivity|]. cbn [client_reads pieces map].
  destruct (client_read m n c) as [x c'] eqn:E. apply read_rd in E. destruct (rd_supplies _ _ _ _ _ _ E D HD) as (-> & D' & HD' & Q).
  cbn [length app] in *. rewrite Nat.sub_0_r in *. specialize (IH c' D' HD'). rewrite Q in IH. destruct (client_reads m sizes c') as [xs c2]. cbn [fst] in *. rewrite IH. reflexivity.
Qed.

(** ** Endings *)
Lemma data_clean m r key iv k f rest : keyed m r key iv k -> stream (r_src r) = sealed_record key iv k ApplicationDataTy f ++ rest ->
  zlen f <= 16384 -> k + 1 < 2 ^ 64 -> no_pending r -> clean (r_src r) ->
  exists r', read_application_data m r = (Ok f, r') /\ keyed m r' key iv (k + 1) /\ stream (r_src r') = rest /\ no_pending r' /\ clean (r_src r').
Proof.
  intros Hk S L K1 NP C. destruct (sealed_message m r key iv k _ f rest Hk S L K1 NP ltac:(discriminate)) as (r' & Hk' & S' & Cl & B & E).
  cbn [handle_record rc_type rc_fragment mret] in E. exists r'. split; [|split; [exact Hk'|split; [exact S'|split; [eapply no_pending_buf; eauto|auto]]]].
  unfold read_application_data. destruct Hk as (-> & _). unfold mbind. rewrite E. reflexivity.
Qed.
Lemma keyed_dec m r key iv k : keyed m r key iv k -> r_dec r <> None.
Proof. intros (-> & _). discriminate. Qed.
Lemma ending_supplies m r key iv k rest : keyed m r key iv k -> stream (r_src r) = rest -> clean (r_src r) -> no_pending r -> k + 1 < 2 ^ 64 ->
  ending key iv k rest -> supplies m r [].
Proof.
  intros Hk S C NP K1 He. inversion He as [rest0 more t maj min f W M L|l]; subst.
  - destruct (read_record_cut m r more t maj min f C W M L) as (r' & E & Es & Ed & Eb).
    eapply Su_err; [apply app_fails; [eapply keyed_dec; eauto|exact NP|exact E]|].
    split; [exact Es|]. split; [eapply no_pending_buf; eauto|]. rewrite Ed. eapply keyed_dec; eauto.
  - destruct (sealed_message m r key iv k AlertTy [z2b (rfc_alert_level l); x00] [] Hk ltac:(rewrite app_nil_r; congruence) ltac:(discriminate) K1 NP ltac:(discriminate)) as (r' & Hk' & S' & Cl & B & E).
    change (@nil byte) with (@nil byte ++ []). eapply Su_data with (r' := r').
    + unfold read_application_data. destruct Hk as (-> & _). unfold mbind. rewrite E. destruct l; reflexivity.
    + constructor. split; [apply clean_stream; auto|]. split; [eapply no_pending_buf; eauto|eapply keyed_dec; eauto].
Qed.
Theorem ended_reads m key iv rest sizes c k fs : serving m c key iv k fs rest -> clean (r_src (c_reader c)) -> k + zlen fs + 1 < 2 ^ 64 ->
  ending key iv (k + zlen fs) rest -> fst (client_reads m sizes c) = map Ok (pieces sizes (c_buf c ++ concat fs)).
Proof.
  intros (Hk & S & F & _ & NP) C K He. apply reads_supplied. generalize dependent (c_reader c). clear c. revert k K He.
  induction fs as [|f fs IH]; intros k K He r Hk S NP C; cbn [concat sealed_stream] in *.
  - change (zlen (@nil bytes)) with 0 in *. rewrite Z.add_0_r in *. eapply ending_supplies; eauto.
  - inversion F; subst. rewrite zlen_cons in *. pose proof (zlen_nonneg fs). rewrite <- app_assoc in S.
    destruct (data_clean m r key iv k f _ Hk S ltac:(assumption) ltac:(lia) NP C) as (r' & E & Hk' & S' & NP' & C').
    eapply Su_data; [exact E|]. eapply (IH ltac:(assumption) (k + 1)); eauto; [lia|]. replace (k + 1 + zlen fs) with (k + (1 + zlen fs)) by lia. exact He.
Qed.
Theorem same_ends m key iv k sizes c1 c2 rest1 rest2 fs : 
  serving m c1 key iv k fs rest1 -> clean (r_src (c_reader c1)) -> ending key iv (k + zlen fs) rest1 ->
  serving m c2 key iv k fs rest2 -> clean (r_src (c_reader c2)) -> ending key iv (k + zlen fs) rest2 ->
  k + zlen fs + 1 < 2 ^ 64 -> c_buf c1 = c_buf c2 -> fst (client_reads m sizes c1) = fst (client_reads m sizes c2).
Proof. intros S1 C1 E1 S2 C2 E2 K B. erewrite (ended_reads m key iv rest1), (ended_reads m key iv rest2), B by eauto. reflexivity. Qed.
Theorem never_errs m n c k : fst (client_read m n c) <> Err k.
Proof. intros E. destruct (client_read m n c) as [x c'] eqn:R. apply read_rd in R. eapply rd_no_err; eauto. Qed.
Lemma rd_short m n done c x c' : rd m n done c x c' -> forall d, x = Ok d -> (length d < n)%nat ->
  c_buf c' = [] /\ exists r k, read_application_data m r = (Err k, c_reader c').
Proof.
  induction 1 as [done c L|done c x c' L B R IH|done c d0 r' x c' L B E R IH|done c e r' L B E|done c r' L B E|done c r' L B E]; intros d Ex L'; try discriminate Ex; eauto.
  apply Ok_inj in Ex. subst. lia.
Qed.
Theorem short_read m n c d c' : client_read m n c = (Ok d, c') -> (length d < n)%nat ->
  c_buf c' = [] /\ exists r k, read_application_data m r = (Err k, c_reader c').
Proof. intros E L. eapply rd_short; [apply read_rd; exact E|reflexivity|exact L]. Qed.

(** ** Witnesses *)
Lemma connected_clean m s p g c : clean s -> client_new m s p g = (Ok tt, c) -> clean (r_src (c_reader c)).
Proof.
  intros C E. destruct (new_splitting m s s p g (conj C (conj C eq_refl))) as [_ H]. rewrite E in H. cbn [snd] in H. destruct H as [(_ & _ & _ & _ & (H & _)) _]. exact H.
Qed.
Lemma truncated m : exists s g ss c sent rest, client_new m s [] g = (Ok tt, c) /\ reached m s g (Complete ss) /\ clean s /\
  sent = sealed_stream (k_server (s_keys ss)) (iv_server (s_keys ss)) 1 ApplicationDataTy [[x61]; [x62]] /\
  sent = stream (r_src (c_reader c)) ++ rest /\ rest <> [] /\
  fst (client_reads m [8; 8; 8]%nat c) = [Ok [x61]; Ok []; Ok []].
Proof.
  set (part := fun ss => firstn 10 (sealed_record (k_server (s_keys ss)) (iv_server (s_keys ss)) 2 ApplicationDataTy [x62])).
  destruct (conforming_run m plain_server (fun ss => sealed_stream (k_server (s_keys ss)) (iv_server (s_keys ss)) 1 ApplicationDataTy [[x61]] ++ part ss) plain_wf)
    as (s & ss & c & C & _ & E & R & Hk & _ & _ & Rb & B & S).
  assert (Ln : (10 < length (sealed_record (k_server (s_keys ss)) (iv_server (s_keys ss)) 2 ApplicationDataTy [x62]))%nat).
  { unfold sealed_record, e_record, wire. repeat (rewrite ?app_length, ?be_length; cbn [length]). pose proof (sealed_len (k_server (s_keys ss)) (rfc_nonce (iv_server (s_keys ss)) 2) (rfc_ad 2 ApplicationDataTy x03 x03 (zlen [x62])) [x62]) as L.
    unfold zlen in L |- *. cbn [length] in *. lia. }
  exists s, one_tape, ss, c, (sealed_stream (k_server (s_keys ss)) (iv_server (s_keys ss)) 1 ApplicationDataTy [[x61]; [x62]]),
    (skipn 10 (sealed_record (k_server (s_keys ss)) (iv_server (s_keys ss)) 2 ApplicationDataTy [x62])).
  do 3 (split; [assumption|]). split; [reflexivity|]. split; [|split].
  - rewrite S. unfold part. cbn [sealed_stream]. change (1 + 1) with 2. rewrite !app_nil_r, <- app_assoc, firstn_skipn. reflexivity.
  - intros X. apply (f_equal (@length byte)) in X. rewrite skipn_length in X. cbn [length] in X. lia.
  - rewrite (ended_reads m (k_server (s_keys ss)) (iv_server (s_keys ss)) (part ss) _ c 1 [[x61]]).
    + rewrite B. reflexivity.
    + split; [exact Hk|]. split; [exact S|]. split; [constructor; [discriminate|constructor]|]. split; [reflexivity|apply no_pending_nil; exact Rb].
    + eapply connected_clean; eauto.
    + reflexivity.
    + apply End_cut with (more := skipn 10 (sealed_record (k_server (s_keys ss)) (iv_server (s_keys ss)) 2 ApplicationDataTy [x62]))
        (t := ApplicationDataTy) (maj := x03) (min := x03) (f := aead_seal (k_server (s_keys ss)) (rfc_nonce (iv_server (s_keys ss)) 2) (rfc_ad 2 ApplicationDataTy x03 x03 (zlen [x62])) [x62]).
      * unfold part. rewrite firstn_skipn. reflexivity.
      * intros X. apply (f_equal (@length byte)) in X. rewrite skipn_length in X. cbn [length] in X. lia.
      * rewrite sealed_len. discriminate.
Qed.
Lemma waits m : exists s g ss c c', client_new m s [] g = (Ok tt, c) /\ reached m s g (Complete ss) /\
  stream (r_src (c_reader c)) = sealed_stream (k_server (s_keys ss)) (iv_server (s_keys ss)) 1 ApplicationDataTy [[x61]; [x62]] /\
  client_read m 8 c = (Ok [x61; x62], c').
Proof.
  destruct (conforming_run m plain_server (fun ss => sealed_stream (k_server (s_keys ss)) (iv_server (s_keys ss)) 1 ApplicationDataTy [[x61]; [x62]] ++ []) plain_wf)
    as (s & ss & c & C & _ & E & R & Hk & _ & _ & Rb & B & S).
  destruct (client_read m 8 c) as [x c'] eqn:Ec. exists s, one_tape, ss, c, c'. do 2 (split; [assumption|]). rewrite app_nil_r in S. split; [exact S|].
  destruct (rd_drains m (k_server (s_keys ss)) (iv_server (s_keys ss)) 8 [] c x c' (read_rd _ _ _ _ _ Ec) 1 [[x61]; [x62]]) as [-> _].
  - split; [exact Hk|]. rewrite app_nil_r. split; [exact S|]. split; [repeat constructor; discriminate|]. split; [reflexivity|apply no_pending_nil; exact Rb].
  - rewrite B. cbn. lia.
  - rewrite B in Ec. exact Ec.
Qed.
