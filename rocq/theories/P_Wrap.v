(** C99: sequence numbers beyond 2^64. *)
From Verif Require Import Spec_Wrap P_Util P_Codec P_CodecProps P_RecordW P_RecordR P_Record P_Record2 P_Aead P_Client P_App P_App2 P_Life P_Broken P_Any.
From Coq Require Import ZifyBool ZifyNat ZifyN.
Local Open Scope list_scope.
Local Open Scope Z_scope.
#[local] Opaque SHA256 HMAC aead_seal aead_decrypt aead_encrypt compute_keys PRF nmul.

Lemma given_healthy l : forall p, Forall (fun e => e = WOk) p -> exists p', given_out p l = (true, concat l, p') /\ Forall (fun e => e = WOk) p'.
Proof.
  induction l as [|s l IH]; intros p H; cbn [given_out concat]; [eauto|]. destruct s as [|x s]; [exact (IH p H)|].
  destruct H as [|e p -> H]; [destruct (IH [] (Forall_nil _)) as (p' & -> & H')|destruct (IH p H) as (p' & -> & H')]; eauto.
Qed.

(** ** One record sent *)
Lemma one_more m t key iv f w k : legal_fragment f -> keyed_w m w key iv k -> k < 2 ^ 64 -> healthy w ->
  exists w1, write_record m (Rec t x03 x03 f) w = w_bump m w1 /\ w_out w1 = w_out w ++ sealed_record key iv k t f /\ keyed_w m w1 key iv k /\ healthy w1.
Proof.
  intros [L1 L2] (He & Hi & Hc & Lk & Li & K0) R H. set (sd := aead_seal key (rfc_nonce iv k) (rfc_ad k t x03 x03 (zlen f)) f).
  set (w1 := Writer (w_out w) (w_plan w) (w_enc w) (w_count w) (w_iv w) (w_log w ++ [(rfc_nonce iv k, f, rfc_ad k t x03 x03 (zlen f), sd)])).
  assert (Ep : protect (Rec t x03 x03 f) w = (Ok sd, w1)).
  { unfold protect. rewrite He, Hi, Hc, seq_nonce_rfc, seq_ad_rfc by (assumption || lia). cbn [rc_fragment rc_type rc_major rc_minor]. unfold new_encryptor at 1.
    rewrite aead_encrypt_spec; [unfold w1; rewrite He, Hi, Hc; reflexivity|exact Lk|apply rfc_nonce_length; lia|apply fits_record; lia]. }
  assert (Ls : zlen sd = zlen f + 16) by (unfold sd, zlen; rewrite aead_seal_length; lia).
  rewrite (record_given m _ w sd w1 Ep) by lia. destruct (given_healthy (header_parts (Rec t x03 x03 f) sd) (w_plan w) H) as (p' & -> & H').
  eexists. split; [reflexivity|]. split; [|split; [|exact H']].
  - cbn [planned w_out]. f_equal. exact (sliced_concat _ _ (parts_sliced (Rec t x03 x03 f) sd ltac:(lia))).
  - unfold w1. repeat split; cbn; try assumption; lia.
Qed.
Lemma bump_release w key iv k : keyed_w Release w key iv k -> k < 2 ^ 64 -> exists w', w_bump Release w = (Ok tt, w') /\ keyed_w Release w' key iv ((k + 1) mod 2 ^ 64) /\ w_out w' = w_out w /\ w_plan w' = w_plan w.
Proof.
  intros (He & Hi & Hc & Lk & Li & K0) R. unfold w_bump, ck. rewrite Hc.
  assert (P : 0 <= (k + 1) mod 2 ^ 64) by (apply Z.mod_pos_bound; reflexivity).
  destruct ((0 <=? k + 1) && (k + 1 <? 2 ^ 64)) eqn:B.
  - eexists. split; [reflexivity|]. rewrite Z.mod_small by lia. repeat split; cbn; try assumption; lia.
  - eexists. split; [reflexivity|]. repeat split; cbn; try assumption.
Qed.
Lemma bump_debug w key iv k : keyed_w Debug w key iv k -> k < 2 ^ 64 -> exists w', w_bump Debug w = ((if k + 1 <? 2 ^ 64 then Ok tt else Panic), w') /\ (k + 1 < 2 ^ 64 -> keyed_w Debug w' key iv (k + 1)) /\ w_out w' = w_out w /\ w_plan w' = w_plan w.
Proof.
  intros (He & Hi & Hc & Lk & Li & K0) R. unfold w_bump, ck. rewrite Hc. replace (0 <=? k + 1) with true by lia. cbn [andb].
  destruct (k + 1 <? 2 ^ 64) eqn:B.
  - eexists. split; [reflexivity|]. split; [intros _|split; reflexivity]. repeat split; cbn; try assumption; lia.
  - exists w. split; [reflexivity|]. split; [intros; lia|split; reflexivity].
Qed.

(** ** Any number of records sent *)
Lemma cyclic_mod key iv t fs : forall k, cyclic key iv (k mod 2 ^ 64) t fs = cyclic key iv k t fs.
Proof.
  induction fs as [|f fs IH]; intros k; [reflexivity|]. cbn [cyclic]. rewrite Z.mod_mod by discriminate. f_equal.
  rewrite <- IH, <- (IH (k + 1)). f_equal. apply Z.add_mod_idemp_l. discriminate.
Qed.
Lemma cyclic_app key iv t a : forall k b, cyclic key iv k t (a ++ b) = cyclic key iv k t a ++ cyclic key iv (k + zlen a) t b.
Proof.
  induction a as [|f a IH]; intros k b; [cbn [app cyclic]; rewrite zlen_nil, Z.add_0_r; reflexivity|].
  cbn [app cyclic]. rewrite IH, <- app_assoc. replace (k + zlen (f :: a)) with (k + 1 + zlen a) by (rewrite zlen_cons; lia). reflexivity.
Qed.
Lemma cyclic_sealed key iv t fs : forall k, 0 <= k -> k + zlen fs <= 2 ^ 64 -> cyclic key iv k t fs = sealed_stream key iv k t fs.
Proof.
  induction fs as [|f fs IH]; intros k K R; [reflexivity|]. rewrite zlen_cons in R. pose proof (zlen_nonneg fs). cbn [cyclic sealed_stream]. rewrite Z.mod_small, IH by lia. reflexivity.
Qed.
Lemma record_new_legal t f : legal_fragment f -> record_new t (fst tls_version) (snd tls_version) f = Ok (Rec t x03 x03 f).
Proof. intros [L1 L2]. unfold record_new. replace (RECORD_MAX_LEN <? zlen f) with false by (change RECORD_MAX_LEN with 16384; lia). reflexivity. Qed.
Lemma fragments_release t key iv fs : Forall legal_fragment fs -> forall w k, keyed_w Release w key iv k -> k < 2 ^ 64 -> healthy w ->
  exists w', write_fragments Release t fs w = (Ok tt, w') /\ w_out w' = w_out w ++ cyclic key iv k t fs /\ keyed_w Release w' key iv ((k + zlen fs) mod 2 ^ 64) /\ healthy w'.
Proof.
  induction 1 as [|f fs Lf _ IH]; intros w k K R H.
  - exists w. cbn [cyclic]. rewrite zlen_nil, Z.add_0_r, app_nil_r, Z.mod_small by (destruct K as (_ & _ & _ & _ & _ & K0); lia). repeat (split; [first [reflexivity|assumption]|]). exact H.
  - cbn [write_fragments]. unfold mbind at 1, mlift. rewrite record_new_legal by exact Lf.
    destruct (one_more Release t key iv f w k Lf K R H) as (w1 & E1 & O1 & K1 & H1). destruct (bump_release w1 key iv k K1 R) as (w2 & E2 & K2 & O2 & P2).
    unfold mbind. rewrite E1, E2. assert (H2 : healthy w2) by (unfold healthy; rewrite P2; exact H1).
    destruct (IH w2 _ K2 (proj2 (Z.mod_pos_bound _ (2 ^ 64) eq_refl)) H2) as (w3 & -> & O3 & K3 & H3). exists w3. split; [reflexivity|]. split; [|split; [|exact H3]].
    + rewrite O3, O2, O1, cyclic_mod. cbn [cyclic]. rewrite (Z.mod_small k) by (destruct K as (_ & _ & _ & _ & _ & K0); lia). rewrite app_assoc. reflexivity.
    + rewrite Z.add_mod_idemp_l in K3 by discriminate. rewrite zlen_cons. replace (k + (1 + zlen fs)) with (k + 1 + zlen fs) by lia. exact K3.
Qed.
Lemma fragments_debug t key iv fs : Forall legal_fragment fs -> forall w k, keyed_w Debug w key iv k -> k < 2 ^ 64 -> healthy w ->
  exists w', write_fragments Debug t fs w = ((if k + zlen fs <? 2 ^ 64 then Ok tt else Panic), w') /\ w_out w' = w_out w ++ sealed_stream key iv k t (firstn (Z.to_nat (2 ^ 64 - k)) fs) /\
    (k + zlen fs < 2 ^ 64 -> keyed_w Debug w' key iv (k + zlen fs)) /\ healthy w'.
Proof.
  induction 1 as [|f fs Lf _ IH]; intros w k K R H.
  - exists w. rewrite zlen_nil, Z.add_0_r, firstn_nil. cbn [sealed_stream]. rewrite app_nil_r. replace (k <? 2 ^ 64) with true by lia. split; [reflexivity|]. split; [reflexivity|]. split; [intros _; exact K|exact H].
  - cbn [write_fragments]. unfold mbind at 1, mlift. rewrite record_new_legal by exact Lf. rewrite zlen_cons. pose proof (zlen_nonneg fs).
    destruct (one_more Debug t key iv f w k Lf K R H) as (w1 & E1 & O1 & K1 & H1). destruct (bump_debug w1 key iv k K1 R) as (w2 & E2 & K2 & O2 & P2).
    unfold mbind. rewrite E1, E2. assert (H2 : healthy w2) by (unfold healthy; rewrite P2; exact H1).
    replace (Z.to_nat (2 ^ 64 - k)) with (S (Z.to_nat (2 ^ 64 - (k + 1)))) by (clear - R; lia). cbn [firstn sealed_stream].
    destruct (k + 1 <? 2 ^ 64) eqn:B.
    + destruct (IH w2 (k + 1) (K2 ltac:(lia)) ltac:(lia) H2) as (w3 & -> & O3 & K3 & H3). exists w3. replace (k + (1 + zlen fs)) with (k + 1 + zlen fs) by lia. split; [reflexivity|].
      split; [rewrite O3, O2, O1, app_assoc; reflexivity|]. split; [exact K3|exact H3].
    + exists w2. replace (k + (1 + zlen fs) <? 2 ^ 64) with false by lia. split; [reflexivity|]. replace (Z.to_nat (2 ^ 64 - (k + 1))) with 0%nat by lia. cbn [firstn sealed_stream]. rewrite app_nil_r.
      split; [congruence|]. split; [intros; lia|exact H2].
Qed.

(** ** Any number of writes *)
Lemma write_release key iv k d fs c : parcels d fs -> keyed_w Release (c_writer c) key iv k -> k < 2 ^ 64 -> healthy (c_writer c) ->
  exists c', client_write Release d c = (Ok (zlen d), c') /\ w_out (c_writer c') = w_out (c_writer c) ++ cyclic key iv k ApplicationDataTy fs /\
    keyed_w Release (c_writer c') key iv ((k + zlen fs) mod 2 ^ 64) /\ healthy (c_writer c').
Proof.
  intros P K R H. apply parcels_iff in P. destruct (fragments_legal d) as (_ & H2 & _). cbv zeta in H2. rewrite <- P in H2.
  destruct (fragments_release ApplicationDataTy key iv fs H2 (c_writer c) k K R H) as (w' & E & O & K' & H').
  exists (Client (c_reader c) w' (c_rng c) (c_buf c)). split; [|auto].
  unfold client_write, client_write_all, mbind, or_alert, on_writer, write_application_data. destruct K as (He & _). rewrite He. unfold write_data. rewrite <- P, E. reflexivity.
Qed.
Lemma write_debug key iv k d fs c : parcels d fs -> keyed_w Debug (c_writer c) key iv k -> k < 2 ^ 64 -> healthy (c_writer c) ->
  exists c', client_write Debug d c = ((if k + zlen fs <? 2 ^ 64 then Ok (zlen d) else Panic), c') /\ w_out (c_writer c') = w_out (c_writer c) ++ sealed_stream key iv k ApplicationDataTy (firstn (Z.to_nat (2 ^ 64 - k)) fs) /\
    (k + zlen fs < 2 ^ 64 -> keyed_w Debug (c_writer c') key iv (k + zlen fs)) /\ healthy (c_writer c').
Proof.
  intros P K R H. apply parcels_iff in P. destruct (fragments_legal d) as (_ & H2 & _). cbv zeta in H2. rewrite <- P in H2.
  destruct (fragments_debug ApplicationDataTy key iv fs H2 (c_writer c) k K R H) as (w' & E & O & K' & H').
  exists (Client (c_reader c) w' (c_rng c) (c_buf c)). split; [|auto].
  unfold client_write, client_write_all, mbind, or_alert, on_writer, write_application_data. destruct K as (He & _). rewrite He. unfold write_data. rewrite <- P, E. destruct (k + zlen fs <? 2 ^ 64); reflexivity.
Qed.
Lemma zlen_app_l {A} (a b : list A) : zlen (a ++ b) = zlen a + zlen b. Proof. unfold zlen. rewrite app_length. lia. Qed.
Theorem release_wraps key iv ds fss : Forall2 parcels ds fss -> forall k c, keyed_w Release (c_writer c) key iv k -> k < 2 ^ 64 -> healthy (c_writer c) ->
  exists c', writing Release ds c = (Ok tt, c') /\ w_out (c_writer c') = w_out (c_writer c) ++ cyclic key iv k ApplicationDataTy (concat fss) /\
    keyed_w Release (c_writer c') key iv ((k + zlen (concat fss)) mod 2 ^ 64) /\ healthy (c_writer c').
Proof.
  induction 1 as [|d fs ds fss P _ IH]; intros k c K R H.
  - exists c. cbn [writing concat cyclic]. rewrite zlen_nil, Z.add_0_r, app_nil_r, Z.mod_small by (destruct K as (_ & _ & _ & _ & _ & K0); lia). repeat (split; [first [reflexivity|assumption]|]). exact H.
  - destruct (write_release key iv k d fs c P K R H) as (c1 & E1 & O1 & K1 & H1). cbn [writing concat]. unfold mbind. rewrite E1.
    destruct (IH _ c1 K1 (proj2 (Z.mod_pos_bound _ (2 ^ 64) eq_refl)) H1) as (c2 & -> & O2 & K2 & H2). exists c2. split; [reflexivity|]. split; [|split; [|exact H2]].
    + rewrite O2, O1, cyclic_mod, cyclic_app, app_assoc. reflexivity.
    + rewrite Z.add_mod_idemp_l in K2 by discriminate. rewrite zlen_app_l, Z.add_assoc. exact K2.
Qed.
Lemma sealed_stream_app key iv t a : forall k b, sealed_stream key iv k t (a ++ b) = sealed_stream key iv k t a ++ sealed_stream key iv (k + zlen a) t b.
Proof.
  induction a as [|f a IH]; intros k b; [cbn [app sealed_stream]; rewrite zlen_nil, Z.add_0_r; reflexivity|].
  cbn [app sealed_stream]. rewrite IH, <- app_assoc. replace (k + zlen (f :: a)) with (k + 1 + zlen a) by (rewrite zlen_cons; lia). reflexivity.
Qed.
Theorem debug_stops key iv ds fss : Forall2 parcels ds fss -> forall k c, keyed_w Debug (c_writer c) key iv k -> k < 2 ^ 64 -> healthy (c_writer c) ->
  exists c', writing Debug ds c = ((if k + zlen (concat fss) <? 2 ^ 64 then Ok tt else Panic), c') /\
    w_out (c_writer c') = w_out (c_writer c) ++ sealed_stream key iv k ApplicationDataTy (firstn (Z.to_nat (2 ^ 64 - k)) (concat fss)).
Proof.
  induction 1 as [|d fs ds fss P _ IH]; intros k c K R H.
  - exists c. cbn [writing concat]. rewrite zlen_nil, Z.add_0_r, firstn_nil. cbn [sealed_stream]. rewrite app_nil_r. replace (k <? 2 ^ 64) with true by lia. split; reflexivity.
  - destruct (write_debug key iv k d fs c P K R H) as (c1 & E1 & O1 & K1 & H1). cbn [writing concat]. unfold mbind. rewrite E1, zlen_app_l. pose proof (zlen_nonneg (concat fss)). pose proof (zlen_nonneg fs).
    destruct (k + zlen fs <? 2 ^ 64) eqn:B.
    + destruct (IH _ c1 (K1 ltac:(lia)) ltac:(lia) H1) as (c2 & -> & O2). exists c2. rewrite Z.add_assoc. split; [reflexivity|].
      rewrite O2, O1, firstn_app, sealed_stream_app, <- app_assoc.
      assert (L : (length fs <= Z.to_nat (2 ^ 64 - k))%nat) by (unfold zlen in *; clear - B R; lia).
      rewrite firstn_all2 by exact L. replace (Z.to_nat (2 ^ 64 - k) - length fs)%nat with (Z.to_nat (2 ^ 64 - (k + zlen fs))) by (unfold zlen in *; clear - B R; lia). reflexivity.
    + exists c1. replace (k + (zlen fs + zlen (concat fss)) <? 2 ^ 64) with false by lia. split; [reflexivity|]. rewrite O1, firstn_app.
      replace (Z.to_nat (2 ^ 64 - k) - length fs)%nat with 0%nat by (unfold zlen in *; clear - B R; lia). cbn [firstn]. rewrite app_nil_r. reflexivity.
Qed.
(** the number of the first record comes back *)
Lemma concat_single {A} (l : list A) : concat (map (fun x => [x]) l) = l.
Proof. induction l as [|x l IH]; [reflexivity|]. cbn. rewrite IH. reflexivity. Qed.
Lemma parcels_each l : Forall legal_fragment l -> Forall2 parcels l (map (fun x => [x]) l).
Proof. induction 1; constructor; [apply parcels_small; assumption|assumption]. Qed.
Theorem number_again key iv k c ds f g : keyed_w Release (c_writer c) key iv k -> k < 2 ^ 64 -> healthy (c_writer c) ->
  Forall legal_fragment ds -> legal_fragment f -> legal_fragment g -> 1 + zlen ds = 2 ^ 64 ->
  exists c', writing Release (f :: ds ++ [g]) c = (Ok tt, c') /\
    w_out (c_writer c') = w_out (c_writer c) ++ sealed_record key iv k ApplicationDataTy f ++ cyclic key iv (k + 1) ApplicationDataTy ds ++ sealed_record key iv k ApplicationDataTy g.
Proof.
  intros K R H Ld Lf Lg N. assert (L : Forall legal_fragment (f :: ds ++ [g])) by (constructor; [exact Lf|]; apply Forall_app; split; [exact Ld|constructor; [exact Lg|constructor]]).
  destruct (release_wraps key iv _ _ (parcels_each _ L) k c K R H) as (c' & E & O & _). exists c'. split; [exact E|]. rewrite O, concat_single. f_equal.
  cbn [cyclic]. rewrite (Z.mod_small k) by (destruct K as (_ & _ & _ & _ & _ & K0); lia). f_equal. rewrite cyclic_app. f_equal. cbn [cyclic]. rewrite app_nil_r. f_equal.
  replace (k + 1 + zlen ds) with (k + 1 * 2 ^ 64) by lia. rewrite Z.mod_add by discriminate. apply Z.mod_small. destruct K as (_ & _ & _ & _ & _ & K0); lia.
Qed.

(** ** Records received *)
Lemma read_wraps m r key iv k f rest : keyed m r key iv k -> stream (r_src r) = sealed_record key iv k ApplicationDataTy f ++ rest -> zlen f <= 16384 -> k < 2 ^ 64 -> no_pending r ->
  exists s', stream s' = rest /\ read_application_data m r = match ck m 64 (k + 1) with Ok n => (Ok f, set_count (set_src r s') n) | Err e => (Err e, set_src r s') | Panic => (Panic, set_src r s') | Diverge => (Diverge, set_src r s') end.
Proof.
  intros (D & V & C & Lk & Li & K0) S L K1 NP. unfold sealed_record, e_record in S. pose proof (zlen_nonneg f).
  destruct (read_record_wire m r ApplicationDataTy x03 x03 _ rest S) as (s' & S' & _ & E); [rewrite sealed_len; change ENC_RECORD_MAX_LEN with 18432; lia|].
  exists s'. split; [exact S'|]. unfold finish, mbind in E.
  rewrite (unprotect_carried (set_src r s') ApplicationDataTy x03 x03 f) in E; [| |exact L].
  2:{ unfold carried. cbn [set_src r_dec r_iv r_count]. rewrite D. cbn [new_decryptor dc_mac_len dc_decrypt]. rewrite sealed_len. split; [lia|].
      rewrite V, C, seq_nonce_rfc by (assumption || lia). replace (zlen f + 16 - 16) with (zlen f) by lia. apply open_seal; [exact Lk|apply rfc_nonce_length; lia|apply fits_record; lia]. }
  unfold r_bump in E. cbn [r_count set_src] in E. rewrite C in E.
  unfold read_application_data. rewrite D. unfold mbind. rewrite read_message_eq, NP.
  replace (set_buf r (r_buf r)) with r by (symmetry; apply set_buf_id). rewrite pull_eq. unfold mbind. rewrite E. destruct (ck m 64 (k + 1)); reflexivity.
Qed.
Theorem read_release key iv fs : Forall (fun f => zlen f <= 16384) fs -> forall r k rest, keyed Release r key iv k -> k < 2 ^ 64 -> no_pending r ->
  stream (r_src r) = cyclic key iv k ApplicationDataTy fs ++ rest ->
  exists r', taking Release (length fs) r = (Ok fs, r') /\ keyed Release r' key iv ((k + zlen fs) mod 2 ^ 64) /\ no_pending r' /\ stream (r_src r') = rest.
Proof.
  induction 1 as [|f fs Lf _ IH]; intros r k rest K R NP S; assert (K0 : 0 <= k) by apply K.
  - exists r. cbn [length taking]. rewrite zlen_nil, Z.add_0_r, Z.mod_small by lia. split; [reflexivity|]. auto.
  - cbn [cyclic] in S. rewrite (Z.mod_small k), <- app_assoc in S by lia. destruct (read_wraps Release r key iv k f _ K S Lf R NP) as (s' & S' & E).
    assert (X : ck Release 64 (k + 1) = Ok ((k + 1) mod 2 ^ 64)).
    { unfold ck. destruct ((0 <=? k + 1) && (k + 1 <? 2 ^ 64)) eqn:B; [|reflexivity]. rewrite Z.mod_small by lia. reflexivity. }
    rewrite X in E. pose proof (Z.mod_pos_bound (k + 1) (2 ^ 64) eq_refl) as B. cbn [length taking]. unfold mbind at 1. rewrite E.
    destruct (IH (set_count (set_src r s') ((k + 1) mod 2 ^ 64)) ((k + 1) mod 2 ^ 64) rest) as (r' & E' & K' & NP' & S2).
    + destruct K as (D & V & C & Lk & Li & _). repeat split; cbn; try assumption. apply B.
    + apply B.
    + exact NP.
    + cbn [set_count set_src r_src]. rewrite cyclic_mod. exact S'.
    + unfold mbind. rewrite E'. exists r'. split; [reflexivity|]. rewrite Z.add_mod_idemp_l in K' by discriminate. rewrite zlen_cons, Z.add_assoc. auto.
Qed.
Theorem read_debug key iv fs : Forall (fun f => zlen f <= 16384) fs -> forall r k rest, keyed Debug r key iv k -> k < 2 ^ 64 -> no_pending r ->
  stream (r_src r) = sealed_stream key iv k ApplicationDataTy fs ++ rest -> k + zlen fs = 2 ^ 64 ->
  exists r', taking Debug (length fs) r = (Panic, r').
Proof.
  induction 1 as [|f fs Lf _ IH]; intros r k rest K R NP S N; assert (K0 : 0 <= k) by apply K.
  - rewrite zlen_nil in N. lia.
  - rewrite zlen_cons in N. pose proof (zlen_nonneg fs). cbn [sealed_stream] in S. rewrite <- app_assoc in S. destruct (read_wraps Debug r key iv k f _ K S Lf R NP) as (s' & S' & E).
    cbn [length taking]. unfold mbind at 1. rewrite E. unfold ck. destruct ((0 <=? k + 1) && (k + 1 <? 2 ^ 64)) eqn:B; [|eauto].
    destruct (IH (set_count (set_src r s') (k + 1)) (k + 1) rest) as (r' & E'); [|lia|exact NP|exact S'|lia|unfold mbind; rewrite E'; eauto].
    destruct K as (D & V & C & Lk & Li & _). repeat split; cbn; try assumption. lia.
Qed.
(** the bytes of a record received before are taken again *)
Theorem taken_again key iv f fs r k rest : Forall (fun f => zlen f <= 16384) (f :: fs) -> 1 + zlen fs = 2 ^ 64 -> keyed Release r key iv k -> k < 2 ^ 64 -> no_pending r ->
  let old := sealed_record key iv k ApplicationDataTy f in
  stream (r_src r) = old ++ cyclic key iv (k + 1) ApplicationDataTy fs ++ old ++ rest ->
  exists r', taking Release (length (f :: fs ++ [f])) r = (Ok (f :: fs ++ [f]), r') /\ stream (r_src r') = rest.
Proof.
  intros L N K R NP old S. assert (K0 : 0 <= k) by apply K. apply Forall_cons_iff in L as [Lf Lfs].
  destruct (read_release key iv (f :: fs ++ [f])) with (r := r) (k := k) (rest := rest) as (r' & E & _ & _ & S'); [|exact K|exact R|exact NP| |exists r'; auto].
  - constructor; [exact Lf|]. apply Forall_app. split; [exact Lfs|]. constructor; [exact Lf|constructor].
  - rewrite S. cbn [cyclic]. rewrite (Z.mod_small k) by lia. fold old. rewrite cyclic_app. cbn [cyclic]. rewrite app_nil_r.
    replace ((k + 1 + zlen fs) mod 2 ^ 64) with k. { fold old. rewrite <- !app_assoc. reflexivity. }
    replace (k + 1 + zlen fs) with (k + 1 * 2 ^ 64) by lia. rewrite Z.mod_add by discriminate. symmetry. apply Z.mod_small. lia.
Qed.

(** ** Both happen *)
Definition ready_writer (m : mode) (k : Z) : writer := Writer [] [] (Some (new_encryptor m (repeat x00 32))) k (Some (repeat x00 12)) [].
Definition ready_reader (m : mode) (k : Z) (bs : bytes) : reader := Reader [RData bs] (Some (new_decryptor m (repeat x00 32))) k [] (Some (repeat x00 12)).
Definition ready_client (m : mode) (k : Z) : client := Client (ready_reader m k []) (ready_writer m k) [] [].
Lemma ready_keyed_w m k : 0 <= k -> keyed_w m (ready_writer m k) (repeat x00 32) (repeat x00 12) k /\ healthy (ready_writer m k).
Proof. intros K. split; [|constructor]. repeat split. exact K. Qed.
Lemma ready_keyed m k bs : 0 <= k -> keyed m (ready_reader m k bs) (repeat x00 32) (repeat x00 12) k /\ no_pending (ready_reader m k bs) /\ stream (r_src (ready_reader m k bs)) = bs.
Proof. intros K. split; [repeat split; exact K|]. split; [reflexivity|]. unfold ready_reader. cbn [r_src stream]. destruct bs; [reflexivity|]. rewrite app_nil_r. reflexivity. Qed.
Lemma many_ones : exists l, Forall legal_fragment l /\ 1 + zlen l = 2 ^ 64.
Proof.
  destruct (Z_of_nat_complete (2 ^ 64 - 1)) as (n & N); [discriminate|]. exists (repeat [x00] n). split.
  - apply Forall_forall. intros x Hx. apply repeat_spec in Hx as ->. split; discriminate.
  - unfold zlen. rewrite repeat_length, <- N. reflexivity.
Qed.
Theorem reuse_happens : exists key iv k c f g ds mid c', keyed_w Release (c_writer c) key iv k /\ f <> g /\
  writing Release (f :: ds ++ [g]) c = (Ok tt, c') /\
  w_out (c_writer c') = w_out (c_writer c) ++ sealed_record key iv k ApplicationDataTy f ++ mid ++ sealed_record key iv k ApplicationDataTy g.
Proof.
  destruct many_ones as (ds & L & N). destruct (ready_keyed_w Release 0 (Z.le_refl 0)) as [K H].
  destruct (number_again (repeat x00 32) (repeat x00 12) 0 (ready_client Release 0) ds [x61] [x62] K eq_refl H L) as (c' & E & O); [split; discriminate|split; discriminate|exact N|].
  eexists _, _, _, (ready_client Release 0), _, _, ds, _, c'. split; [exact K|]. split; [|split; [exact E|exact O]]. discriminate.
Qed.
Theorem replay_happens : exists key iv k r f fs old mid r', keyed Release r key iv k /\ stream (r_src r) = old ++ mid ++ old /\ 0 < zlen old /\
  taking Release (length (f :: fs ++ [f])) r = (Ok (f :: fs ++ [f]), r').
Proof.
  destruct many_ones as (fs & L & N). set (old := sealed_record (repeat x00 32) (repeat x00 12) 0 ApplicationDataTy [x61]).
  set (mid := cyclic (repeat x00 32) (repeat x00 12) (0 + 1) ApplicationDataTy fs). destruct (ready_keyed Release 0 (old ++ mid ++ old) (Z.le_refl 0)) as (K & NP & S).
  destruct (taken_again (repeat x00 32) (repeat x00 12) [x61] fs (ready_reader Release 0 (old ++ mid ++ old)) 0 []) as (r' & E & _); [|exact N|exact K|reflexivity|exact NP| |].
  - constructor; [discriminate|]. eapply Forall_impl; [|exact L]. intros f [_ Hf]. exact Hf.
  - rewrite app_nil_r. exact S.
  - eexists _, _, _, _, _, _, old, mid, r'. split; [exact K|]. split; [exact S|]. split; [reflexivity|exact E].
Qed.
