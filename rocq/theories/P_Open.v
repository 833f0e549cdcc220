(** Proofs about src/tls.rs with the keys installed: which records are accepted and what happens to the others. *)
From Verif Require Import Spec_Client4 P_Util P_Codec P_RecordW P_RecordR P_Record P_Record2 P_Aead P_Client P_App P_App2 P_Client4 P_Fault P_Pending P_Decode P_Alert.
From Coq Require Import ZifyBool ZifyNat ZifyN.
Local Open Scope list_scope.
Local Open Scope Z_scope.
#[local] Opaque SHA256 HMAC aead_seal aead_decrypt aead_encrypt compute_keys PRF nmul.

(** everything that can become of a complete record under protection *)
Theorem record_opens m r key iv k t maj min f rest : keyed m r key iv k -> k + 1 < 2 ^ 64 -> zlen f <= 18432 -> stream (r_src r) = wire t maj min f ++ rest ->
  exists r', stream (r_src r') = rest /\ r_buf r' = r_buf r /\
  ((exists p, protects key iv k t maj min p f /\ zlen p <= 16384 /\ read_record m r = (Ok (Rec t maj min p), r') /\ keyed m r' key iv (k + 1)) \/
   (exists p, protects key iv k t maj min p f /\ 16384 < zlen p /\ read_record m r = (Panic, r')) \/
   ((forall p, ~ protects key iv k t maj min p f) /\ read_record m r = (Err BadRecordMac, r') /\ keyed m r' key iv k)).
Proof.
  intros (D & V & C & Lk & Li & K0) K1 L S.
  destruct (read_record_wire m r t maj min f rest S) as (s' & S' & _ & E); [unfold ENC_RECORD_MAX_LEN; lia|].
  assert (Kd : keyed m (set_src r s') key iv k) by (unfold keyed; cbn [set_src r_dec r_iv r_count]; auto 10).
  assert (Fi : fits f) by (apply fits_record; lia).
  assert (Hn : length (rfc_nonce iv k) = 12%nat) by (apply rfc_nonce_length; [exact Li|lia]).
  set (ad := seq_ad k t maj min (zlen f - 16)).
  assert (Iff : forall p, protects key iv k t maj min p f <-> aead_decrypt m key (rfc_nonce iv k) f ad = Ok p).
  { intros p. rewrite (open_iff_seal m key (rfc_nonce iv k) ad f p Lk Hn Fi). unfold protects, ad. rewrite seq_ad_rfc.
    split; intros Q; pose proof (f_equal zlen Q) as Lq; rewrite sealed_len in Lq; [replace (zlen f - 16) with (zlen p) by lia|replace (zlen f - 16) with (zlen p) in Q by lia]; exact Q. }
  rewrite E. unfold finish, mbind, unprotect. cbn [set_src r_dec r_iv r_count]. rewrite D, V, C. cbn [new_decryptor dc_mac_len dc_decrypt].
  rewrite seq_nonce_rfc by (assumption || lia). fold ad.
  destruct (Z.ltb_spec (zlen f) 16) as [Sh|Sh].
  { exists (set_src r s'). split; [exact S'|]. split; [reflexivity|]. right. right. split; [|auto]. intros p Q. unfold protects in Q. rewrite Q, sealed_len in Sh. pose proof (zlen_nonneg p). lia. }
  destruct (open_outcomes m key (rfc_nonce iv k) ad f Lk Hn Fi) as [(p & O)|O]; rewrite O; cbn [rbind].
  - unfold record_new. destruct (Z.ltb_spec RECORD_MAX_LEN (zlen p)) as [Big|Sm].
    + exists (set_src r s'). split; [exact S'|]. split; [reflexivity|]. right. left. exists p. split; [apply Iff; exact O|]. split; [change RECORD_MAX_LEN with 16384 in Big; lia|reflexivity].
    + unfold r_bump. cbn [set_src r_count]. rewrite C, ck_ok by lia. cbn [mret].
      eexists. split; [|split; [|left; exists p; split; [apply Iff; exact O|split; [change RECORD_MAX_LEN with 16384 in Sm; lia|split; [reflexivity|]]]]]; [exact S'|reflexivity|].
      unfold keyed. cbn [r_dec r_iv r_count set_src]. repeat (split; [assumption || reflexivity|]). lia.
  - exists (set_src r s'). split; [exact S'|]. split; [reflexivity|]. right. right. split; [|auto]. intros p Sp. apply Iff in Sp. congruence.
Qed.
(** a record that was not sealed is refused, and the one after it is read as if it had not been there *)
Theorem bad_record_skipped m r key iv k t maj min f t' d rest : keyed m r key iv k -> k + 1 < 2 ^ 64 -> zlen f <= 18432 -> (forall p, ~ protects key iv k t maj min p f) ->
  zlen d <= 16384 -> stream (r_src r) = wire t maj min f ++ sealed_record key iv k t' d ++ rest ->
  exists r1 r2, read_record m r = (Err BadRecordMac, r1) /\ read_record m r1 = (Ok (Rec t' x03 x03 d), r2) /\ keyed m r2 key iv (k + 1) /\ stream (r_src r2) = rest.
Proof.
  intros Kd K1 L N Ld S. destruct (record_opens m r key iv k t maj min f _ Kd K1 L S) as (r1 & S1 & _ & [(p & Sp & _)|[(p & Sp & _)|(_ & E & Kd1)]]); try (exfalso; exact (N p Sp)).
  destruct (sealed_step m r1 key iv k t' d rest Kd1 S1 Ld K1) as (r2 & E2 & Kd2 & S2 & _). exists r1, r2. auto.
Qed.
(** ... in place of the server's Finished *)
Theorem bad_finished m s p g ss r r1 t maj min f rest : healthy (writer_new p) -> reached m s g (Complete ss) -> server_flight m (reader_new s) (s_sh ss) (s_certs ss) (s_ske ss) r ->
  read_change_cipher_spec m (ived_reader r (s_keys ss)) = (Ok tt, r1) -> zlen f <= 18432 ->
  (forall d, ~ protects (k_server (s_keys ss)) (iv_server (s_keys ss)) 0 t maj min d f) ->
  stream (r_src r1) = wire t maj min f ++ rest ->
  exists c, client_new m s p g = (Err BadRecordMac, c) /\
    w_out (c_writer c) = stage_out (Complete ss) ++ sealed_record (k_client (s_keys ss)) (iv_client (s_keys ss)) 1 AlertTy [x02; x14].
Proof.
  intros H R F C L N S. pose proof (finished_reader _ _ _ _ _ _ R F C) as Kd. pose proof (ccs_nothing_complete _ _ _ C) as NP.
  destruct (record_opens m (decrypting m r1 (s_keys ss)) _ _ 0 t maj min f rest Kd ltac:(reflexivity) L S) as (r2 & _ & _ & [(d & Sd & _)|[(d & Sd & _)|(_ & E & _)]]); try (exfalso; exact (N d Sd)).
  assert (Rm : exists r', read_message m (decrypting m r1 (s_keys ss)) = (Err BadRecordMac, r')).
  { rewrite read_message_eq. change (r_buf (decrypting m r1 (s_keys ss))) with (r_buf r1). rewrite NP.
    change (set_buf (decrypting m r1 (s_keys ss)) (r_buf r1)) with (decrypting m r1 (s_keys ss)). rewrite pull_eq. unfold mbind. rewrite E. eauto. }
  destruct Rm as (r' & Rm). apply (faults m s p g (Complete ss) BadRecordMac H (proj1 R)). eapply awaits_fault; [eapply AW_finished; eassumption|].
  unfold read_handshake, mbind. rewrite Rm. reflexivity.
Qed.
