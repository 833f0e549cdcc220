(** Proofs about src/client.rs after the handshake, continued: what the peer's records lead to. *)
From Verif Require Import Spec_Client P_Util P_Codec P_RecordW P_RecordR P_Record P_Record2 P_Aead P_Halt P_Client P_App.
From Coq Require Import ZifyBool ZifyNat ZifyN.
Local Open Scope Z_scope.
#[local] Opaque aead_seal aead_decrypt aead_encrypt.

(** ** One sealed record *)
Lemma rfc_nonce_length iv k : length iv = 12%nat -> 0 <= k < 2 ^ 64 -> length (rfc_nonce iv k) = 12%nat.
Proof. intros L K. rewrite <- seq_nonce_rfc by assumption. apply seq_nonce_length. Qed.
Lemma sealed_len key n a f : zlen (aead_seal key n a f) = zlen f + 16.
Proof. unfold zlen. rewrite aead_seal_length. lia. Qed.
Lemma sealed_step m r key iv k t f rest : keyed m r key iv k -> stream (r_src r) = sealed_record key iv k t f ++ rest ->
  zlen f <= 16384 -> k + 1 < 2 ^ 64 ->
  exists r', read_record m r = (Ok (Rec t x03 x03 f), r') /\ keyed m r' key iv (k + 1) /\ stream (r_src r') = rest /\
    (clean (r_src r) -> clean (r_src r')) /\ r_buf r' = r_buf r.
Proof.
  intros (D & V & C & Lk & Li & K0) S L K1. unfold sealed_record, e_record in S.
  destruct (wire_step m r t x03 x03 f _ rest S) as (s' & S' & Cl & R).
  - unfold carried. rewrite D. cbn [new_decryptor dc_mac_len dc_decrypt]. rewrite sealed_len. pose proof (zlen_nonneg f). split; [lia|].
    rewrite V, C, seq_nonce_rfc by (assumption || lia). replace (zlen f + 16 - 16) with (zlen f) by lia.
    apply open_seal; [exact Lk|apply rfc_nonce_length; lia|apply fits_record; lia].
  - exact L.
  - rewrite sealed_len. lia.
  - lia.
  - lia.
  - exists (set_count (set_src r s') (r_count r + 1)). split; [exact R|]. cbn [set_count set_src r_src r_buf r_dec r_iv r_count].
    split; [|auto]. unfold keyed. cbn [set_count set_src r_src r_buf r_dec r_iv r_count]. rewrite C. repeat split; auto. lia.
Qed.
(** the message it leads to *)
Lemma sealed_message m r key iv k t f rest : keyed m r key iv k -> stream (r_src r) = sealed_record key iv k t f ++ rest ->
  zlen f <= 16384 -> k + 1 < 2 ^ 64 -> no_pending r -> t <> HandshakeTy ->
  exists r', keyed m r' key iv (k + 1) /\ stream (r_src r') = rest /\ (clean (r_src r) -> clean (r_src r')) /\ r_buf r' = r_buf r /\
    read_message m r = (match handle_record (Rec t x03 x03 f) r' with (Ok (Some msg), r2) => (Ok msg, r2) | (Ok None, r2) => pull m r2 | (Err e, r2) => (Err e, r2) | (Panic, r2) => (Panic, r2) | (Diverge, r2) => (Diverge, r2) end).
Proof.
  intros Hk S L K1 NP NT. destruct (sealed_step m r key iv k t f rest Hk S L K1) as (r' & R & Hk' & S' & Cl & B).
  exists r'. repeat (split; [assumption|]). rewrite read_message_eq, NP. unfold set_buf. destruct r as [rs rd rc rb ri]. cbn [r_src r_dec r_count r_buf r_iv].
  rewrite pull_eq. unfold mbind. rewrite R. destruct (handle_record _ r') as [[[]| | |] r2]; reflexivity.
Qed.
Lemma no_pending_buf r r' : r_buf r' = r_buf r -> no_pending r -> no_pending r'.
Proof. unfold no_pending. intros ->. auto. Qed.

Lemma read_app_data m r key iv k f rest : keyed m r key iv k -> stream (r_src r) = sealed_record key iv k ApplicationDataTy f ++ rest ->
  zlen f <= 16384 -> k + 1 < 2 ^ 64 -> no_pending r ->
  exists r', read_application_data m r = (Ok f, r') /\ keyed m r' key iv (k + 1) /\ stream (r_src r') = rest /\ no_pending r'.
Proof.
  intros Hk S L K1 NP. destruct (sealed_message m r key iv k _ f rest Hk S L K1 NP ltac:(discriminate)) as (r' & Hk' & S' & _ & B & E).
  cbn [handle_record rc_type rc_fragment mret] in E. exists r'. split; [|split; [exact Hk'|split; [exact S'|eapply no_pending_buf; eauto]]].
  unfold read_application_data. destruct Hk as (-> & _). unfold mbind. rewrite E. reflexivity.
Qed.
Lemma read_app_alert m r key iv k l d rest : keyed m r key iv k -> stream (r_src r) = sealed_record key iv k AlertTy [z2b (rfc_alert_level l); z2b (rfc_alert_desc d)] ++ rest ->
  k + 1 < 2 ^ 64 -> no_pending r ->
  exists r', read_application_data m r = (match d with AD_close_notify => Ok [] | _ => Panic end, r') /\ keyed m r' key iv (k + 1) /\ stream (r_src r') = rest /\ no_pending r'.
Proof.
  intros Hk S K1 NP. destruct (sealed_message m r key iv k _ _ rest Hk S ltac:(discriminate) K1 NP ltac:(discriminate)) as (r' & Hk' & S' & _ & B & E).
  exists r'. split; [|split; [exact Hk'|split; [exact S'|eapply no_pending_buf; eauto]]].
  unfold read_application_data. destruct Hk as (-> & _). unfold mbind. rewrite E.
  destruct l, d; reflexivity.
Qed.
Lemma read_app_ccs m r key iv k rest : keyed m r key iv k -> stream (r_src r) = sealed_record key iv k ChangeCipherSpecTy [x01] ++ rest ->
  k + 1 < 2 ^ 64 -> no_pending r -> exists r', read_application_data m r = (Panic, r').
Proof.
  intros Hk S K1 NP. destruct (sealed_message m r key iv k _ _ rest Hk S ltac:(discriminate) K1 NP ltac:(discriminate)) as (r' & _ & _ & _ & _ & E).
  exists r'. unfold read_application_data. destruct Hk as (-> & _). unfold mbind. rewrite E. reflexivity.
Qed.
(** a complete handshake message in one record *)
Lemma read_app_handshake m r key iv k h rest : keyed m r key iv k -> wf_handshake h -> legal_fragment (e_handshake h) ->
  stream (r_src r) = sealed_record key iv k HandshakeTy (e_handshake h) ++ rest ->
  k + 1 < 2 ^ 64 -> r_buf r = [] -> exists r', read_application_data m r = (Panic, r').
Proof.
  intros Hk W [L1 L2] S K1 B. destruct (sealed_step m r key iv k HandshakeTy (e_handshake h) rest Hk S L2 K1) as (r1 & R & Hk' & S' & _ & B').
  assert (E : exists r2, read_message m r = (Ok (HandshakeMessage h), r2)).
  { rewrite read_message_eq, B. change (get_message []) with (@Ok (option handshake) None, @nil byte). cbv beta iota.
    assert (Er : set_buf r [] = r) by (destruct r; cbn in *; subst; reflexivity). rewrite Er. rewrite pull_eq. unfold mbind. rewrite R.
    cbn [handle_record rc_type rc_fragment].
    destruct (e_handshake h) as [|b f] eqn:Eh; [rewrite zlen_nil in L1; lia|]. rewrite <- Eh.
    unfold mbind, r_add_record, r_get_message. cbn [r_buf]. rewrite B', B. unfold add_record. cbn [app].
    rewrite <- (app_nil_r (e_handshake h)). rewrite get_message_enc by exact W. cbn [mret option_map]. eexists; reflexivity. }
  destruct E as (r2 & E). exists r2. unfold read_application_data. destruct Hk as (-> & _). unfold mbind. rewrite E. reflexivity.
Qed.
Lemma read_app_long m r key iv k t f rest : keyed m r key iv k -> stream (r_src r) = sealed_record key iv k t f ++ rest ->
  16384 < zlen f <= 16384 + 2048 - 16 -> k < 2 ^ 64 -> no_pending r -> exists r', read_application_data m r = (Panic, r').
Proof.
  intros (D & V & C & Lk & Li & K0) S L K NP.
  assert (R : fst (read_record m r) = Panic).
  { eapply (sealed_overflow m r _ iv t x03 x03 f _ rest D V Li); [lia|exact S|rewrite sealed_len; lia|cbn [new_decryptor dc_mac_len]; apply sealed_len| |lia].
    rewrite C. cbn [new_decryptor dc_decrypt]. apply open_seal; [exact Lk|apply rfc_nonce_length; lia|apply fits_record; lia]. }
  unfold read_application_data, mbind. rewrite D, read_message_eq, NP. rewrite pull_eq. unfold mbind.
  assert (Er : set_buf r (r_buf r) = r) by (destruct r; reflexivity). rewrite Er.
  destruct (read_record m r) as [x r1]. cbn [fst] in R. subst x. eexists; reflexivity.
Qed.
(** a record that does not authenticate: an error, the number is not advanced, the next record is read as if nothing had happened *)
Lemma read_app_forged m r key iv k t maj min c rest : keyed m r key iv k -> stream (r_src r) = wire t maj min c ++ rest -> zlen c <= 16384 + 2048 ->
  k < 2 ^ 64 -> (forall p, c <> aead_seal key (rfc_nonce iv k) (rfc_ad k t maj min (zlen c - 16)) p) -> no_pending r ->
  exists r', read_application_data m r = (Err BadRecordMac, r') /\ keyed m r' key iv k /\ stream (r_src r') = rest /\ no_pending r'.
Proof.
  intros Hk S L K NF NP. pose proof Hk as (D & V & C & Lk & Li & K0).
  destruct (read_record_wire m r t maj min c rest S L) as (s' & S' & _ & R).
  assert (F : finish m t maj min c (set_src r s') = (Err BadRecordMac, set_src r s')).
  { unfold finish, mbind, unprotect. cbn [set_src r_dec r_count r_iv]. rewrite D. cbn [new_decryptor dc_mac_len dc_decrypt].
    destruct (zlen c <? 16) eqn:E16; [reflexivity|]. rewrite C, V, seq_ad_rfc, seq_nonce_rfc by (assumption || lia).
    assert (Fi : fits c) by (apply fits_record; lia). assert (Hn : length (rfc_nonce iv k) = 12%nat) by (apply rfc_nonce_length; [exact Li|lia]).
    destruct (open_outcomes m key (rfc_nonce iv k) (rfc_ad k t maj min (zlen c - 16)) c Lk Hn Fi) as [(p & E)|E].
    - apply open_iff_seal in E; [destruct (NF _ E)|exact Lk|apply rfc_nonce_length; lia|exact Fi].
    - rewrite E. reflexivity. }
  exists (set_src r s'). unfold read_application_data, mbind. rewrite D, read_message_eq, NP. rewrite pull_eq. unfold mbind.
  assert (Er : set_buf r (r_buf r) = r) by (destruct r; reflexivity). rewrite Er, R, F.
  split; [reflexivity|]. split; [|split; [exact S'|exact NP]]. unfold keyed. cbn [set_src r_dec r_iv r_count]. exact Hk.
Qed.
(** a record too short to carry a tag never authenticates *)
Lemma short_forged key n a c : (length c < 16)%nat -> forall p, c <> aead_seal key n a p.
Proof. intros L p ->. rewrite aead_seal_length in L. lia. Qed.

(** ** [read] on top *)
Lemma read_panics m len c r' : (0 < len)%nat -> c_buf c = [] -> read_application_data m (c_reader c) = (Panic, r') ->
  fst (client_read m len c) = Panic.
Proof. intros L B E. erewrite rd_read; [reflexivity|]. eapply Rd_panic; eauto. Qed.
Lemma read_swallows m len c k r' : (0 < len)%nat -> c_buf c = [] -> read_application_data m (c_reader c) = (Err k, r') ->
  client_read m len c = (Ok [], with_buf c r' []).
Proof. intros L B E. apply rd_read. eapply Rd_err; eauto. Qed.

(** ** C25: an honest peer *)
Lemma rd_serves m key iv rest len done c x c' : rd m len done c x c' -> forall k fs, serving m c key iv k fs rest ->
  (length done <= len)%nat -> (len - length done <= length (c_buf c ++ concat fs))%nat ->
  exists out k' fs', x = Ok out /\ length out = len /\ out ++ c_buf c' ++ concat fs' = done ++ c_buf c ++ concat fs /\
    serving m c' key iv k' fs' rest.
Proof.
  induction 1 as [done c L|done c x c' L B R IH|done c d r' x c' L B E R IH|done c e r' L B E|done c r' L B E|done c r' L B E]; intros k fs Hs Ld Lf.
  - exists done, k, fs. repeat split; auto; try lia; apply Hs.
  - destruct (IH k fs) as (out & k' & fs' & -> & Lo & Eq & Hs').
    + exact Hs.
    + rewrite app_length, firstn_length. lia.
    + cbn [with_buf c_buf]. rewrite !app_length, firstn_length, skipn_length in *. lia.
    + exists out, k', fs'. split; [reflexivity|]. split; [exact Lo|]. split; [|exact Hs']. rewrite Eq. cbn [with_buf c_buf].
      rewrite <- app_assoc. f_equal. rewrite app_assoc, firstn_skipn. reflexivity.
  - destruct fs as [|f fs]; [rewrite B in Lf; cbn [app concat length] in Lf; lia|].
    destruct Hs as (Hk & S & F & K & NP). inversion F; subst. cbn [sealed_stream] in S. rewrite <- app_assoc in S.
    rewrite zlen_cons in K. pose proof (zlen_nonneg fs).
    destruct (read_app_data m _ key iv k f _ Hk S ltac:(assumption) ltac:(lia) NP) as (r1 & E1 & Hk1 & S1 & NP1).
    rewrite E1 in E. apply pair_equal_spec in E as [E <-]. apply Ok_inj in E. subst d.
    destruct (IH (k + 1) fs) as (out & k' & fs' & -> & Lo & Eq & Hs').
    + split; [exact Hk1|]. split; [exact S1|]. split; [assumption|]. split; [lia|exact NP1].
    + rewrite app_length, firstn_length. lia.
    + rewrite B in Lf. cbn [with_buf c_buf concat app] in *. rewrite !app_length, firstn_length, skipn_length in *. lia.
    + exists out, k', fs'. split; [reflexivity|]. split; [exact Lo|]. split; [|exact Hs']. rewrite Eq, B. cbn [with_buf c_buf app concat].
      rewrite <- app_assoc. f_equal. rewrite app_assoc, firstn_skipn. reflexivity.
  - exfalso. destruct fs as [|f fs]; [rewrite B in Lf; cbn [app concat length] in Lf; lia|].
    destruct Hs as (Hk & S & F & K & NP). inversion F; subst. cbn [sealed_stream] in S. rewrite <- app_assoc in S. rewrite zlen_cons in K. pose proof (zlen_nonneg fs).
    destruct (read_app_data m _ key iv k f _ Hk S ltac:(assumption) ltac:(lia) NP) as (r1 & E1 & _). congruence.
  - exfalso. destruct fs as [|f fs]; [rewrite B in Lf; cbn [app concat length] in Lf; lia|].
    destruct Hs as (Hk & S & F & K & NP). inversion F; subst. cbn [sealed_stream] in S. rewrite <- app_assoc in S. rewrite zlen_cons in K. pose proof (zlen_nonneg fs).
    destruct (read_app_data m _ key iv k f _ Hk S ltac:(assumption) ltac:(lia) NP) as (r1 & E1 & _). congruence.
  - exfalso. destruct fs as [|f fs]; [rewrite B in Lf; cbn [app concat length] in Lf; lia|].
    destruct Hs as (Hk & S & F & K & NP). inversion F; subst. cbn [sealed_stream] in S. rewrite <- app_assoc in S. rewrite zlen_cons in K. pose proof (zlen_nonneg fs).
    destruct (read_app_data m _ key iv k f _ Hk S ltac:(assumption) ltac:(lia) NP) as (r1 & E1 & _). congruence.
Qed.
Lemma serves m key iv rest : forall sizes c k fs, serving m c key iv k fs rest -> (list_sum sizes <= length (c_buf c ++ concat fs))%nat ->
  exists outs c' k' fs', client_reads m sizes c = (map Ok outs, c') /\ map (@length byte) outs = sizes /\
    concat outs ++ c_buf c' ++ concat fs' = c_buf c ++ concat fs /\ serving m c' key iv k' fs' rest.
Proof.
  induction sizes as [|n sizes IH]; intros c k fs Hs L.
  - exists [], c, k, fs. auto.
  - cbn [client_reads]. destruct (client_read m n c) as [x c1] eqn:E. apply read_rd in E.
    change (list_sum (n :: sizes)) with (n + list_sum sizes)%nat in L.
    destruct (rd_serves m key iv rest n [] c x c1 E k fs Hs) as (out & k1 & fs1 & -> & Lo & Eq & Hs1); [cbn; lia|cbn; lia|].
    destruct (IH c1 k1 fs1 Hs1) as (outs & c' & k' & fs' & -> & Ls & Eq' & Hs').
    { cbn [app] in Eq. rewrite <- Eq, app_length in L. lia. }
    exists (out :: outs), c', k', fs'. cbn [map concat]. split; [reflexivity|]. split; [congruence|]. split; [|exact Hs'].
    cbn [app] in Eq. rewrite <- app_assoc, Eq', Eq. reflexivity.
Qed.

(** ** C26 *)
Lemma sealed_as_stream m key iv t : length key = 32%nat -> length iv = 12%nat -> forall fs ss k, Forall legal_fragment fs -> 0 <= k -> k + zlen fs <= 2 ^ 64 ->
  sealed_as (new_encryptor m key) iv k t fs ss -> concat (map (e_record t) ss) = sealed_stream key iv k t fs.
Proof.
  intros Lk Li. induction fs as [|f fs IH]; intros ss k F K K2 [L S]; (destruct ss as [|s ss]; [|]); try discriminate L; [reflexivity|].
  inversion F; subst. rewrite zlen_cons in K2. pose proof (zlen_nonneg fs). cbn [map concat sealed_stream].
  rewrite (IH ss (k + 1)); [| assumption | lia | lia |].
  - f_equal. specialize (S 0%nat f s eq_refl eq_refl). rewrite Z.add_0_r in S. unfold new_encryptor in S.
    match goal with X : legal_fragment f |- _ => destruct X as [_ X2] end.
    rewrite aead_encrypt_spec in S; [|exact Lk|apply rfc_nonce_length; lia|apply fits_record; lia]. apply Ok_inj in S. subst s. reflexivity.
  - split; [injection L; auto|]. intros i f' s' N1 N2. specialize (S (Datatypes.S i) f' s' N1 N2).
    replace (k + 1 + Z.of_nat i) with (k + Z.of_nat (Datatypes.S i)) by lia. exact S.
Qed.
Lemma write_app m key iv k buf c : keyed_w m (c_writer c) key iv k -> k + zlen buf < 2 ^ 64 ->
  exists fs x c', client_write m buf c = (x, c') /\ concat fs = buf /\ Forall legal_fragment fs /\
    c_reader c' = c_reader c /\ c_buf c' = c_buf c /\ (healthy (c_writer c) -> healthy (c_writer c')) /\
    ((x = Ok (zlen buf) /\ w_out (c_writer c') = w_out (c_writer c) ++ sealed_stream key iv k ApplicationDataTy fs /\
      keyed_w m (c_writer c') key iv (k + zlen fs)) \/
     (x = Err IoFailure /\ ~ healthy (c_writer c) /\ exists sent unsent,
        sealed_stream key iv k ApplicationDataTy fs = sent ++ unsent /\ w_out (c_writer c') = w_out (c_writer c) ++ sent)).
Proof.
  intros (E & V & C & Lk & Li & K0) K. destruct (fragments_legal buf) as (H1 & H2 & H3).
  set (fs := chunks (Z.to_nat RECORD_MAX_LEN) buf) in *.
  destruct (write_fragments_sealed m ApplicationDataTy (new_encryptor m key) iv 16 fs Li (aead_seals m key Lk) ltac:(lia) H2 (c_writer c) E V) as (x & w' & ss & W & S1 & S2 & Em & A & B & H & D); [lia|lia|].
  rewrite C in *. rewrite (sealed_as_stream m key iv _ Lk Li fs ss k H2 K0 ltac:(lia) S1) in Em.
  unfold client_write, client_write_all, or_alert, mbind, on_writer, write_application_data. rewrite E. unfold write_data. fold fs. rewrite W.
  destruct Em as [[-> O]|(-> & Hn & a & b & Eb & O)].
  - exists fs, (Ok (zlen buf)), (Client (c_reader c) w' (c_rng c) (c_buf c)). cbn [c_reader c_writer c_buf mret]. split; [reflexivity|].
    repeat (split; [assumption || reflexivity|]). left. split; [reflexivity|]. split; [exact O|]. specialize (D eq_refl). repeat split; try assumption. pose proof (zlen_nonneg fs). lia.
  - exists fs, (Err IoFailure), (Client (c_reader c) w' (c_rng c) (c_buf c)). cbn [send_tls_alert mret c_reader c_writer c_buf]. split; [reflexivity|].
    repeat (split; [assumption || reflexivity|]). right. split; [reflexivity|]. split; [exact Hn|]. exists a, b. auto.
Qed.
