(** The record-layer findings with ChaCha20-Poly1305 as the cipher. *)
From Coq Require Import ZifyBool ZifyNat ZifyN.
From Verif Require Export P_Codec P_Aead P_RecordW P_RecordR P_Record P_Record2 P_RecordX.

Lemma real_reuse : exists m key iv w ops l1 l2,
  length key = 32%nat /\ length iv = 12%nat /\ w_enc w = Some (new_encryptor m key) /\ w_iv w = Some iv /\
  w_count w = 0 /\ w_log w = [] /\
  w_log (snd (run_ops m ops w)) = [l1; l2] /\ log_nonce l1 = log_nonce l2 /\ log_plain l1 <> log_plain l2.
Proof.
  assert (L1 : legal_fragment [x01]) by (cbv; split; discriminate).
  assert (L2 : legal_fragment [x02]) by (cbv; split; discriminate).
  destruct (nonce_reuse Debug (new_encryptor Debug (zeros 32)) 16 (zeros 12) [x01] [x02] (aead_seals Debug (zeros 32) eq_refl)
              ltac:(lia) eq_refl L1 L2 ltac:(discriminate))
    as (w & ops & w' & c1 & c2 & l1 & l2 & H1 & H2 & H3 & H4 & _ & _ & R & H5 & H6 & H7 & H8 & _).
  exists Debug, (zeros 32), (zeros 12), w, ops, l1, l2. split; [reflexivity|]. split; [reflexivity|].
  split; [exact H1|]. split; [exact H2|]. split; [exact H3|]. split; [exact H4|]. split; [rewrite R; exact H5|].
  split; [exact H6|]. rewrite H7, H8. discriminate.
Qed.

Lemma reuse_leaks m key nonce ad1 ad2 p1 p2 c1 c2 i :
  length key = 32%nat -> length nonce = 12%nat -> fits p1 -> fits p2 ->
  aead_encrypt m key nonce p1 ad1 = Ok c1 -> aead_encrypt m key nonce p2 ad2 = Ok c2 ->
  (i < length p1)%nat -> (i < length p2)%nat ->
  bxor (nth i c1 x00) (nth i c2 x00) = bxor (nth i p1 x00) (nth i p2 x00).
Proof.
  intros Hk Hn F1 F2 E1 E2 I1 I2. rewrite aead_encrypt_spec in E1, E2 by assumption.
  apply Ok_inj in E1. apply Ok_inj in E2. subst c1 c2. unfold aead_seal. cbv zeta.
  rewrite !app_nth1 by (rewrite chacha20_encrypt_length; assumption).
  rewrite !chacha20_encrypt_nth by assumption.
  set (k := keystream key nonce 1 i). set (a := nth i p1 x00). set (b := nth i p2 x00).
  rewrite (bxor_comm b k), bxor_assoc, bxor_cancel_r. reflexivity.
Qed.

Lemma real_overflow m key iv t p :
  length key = 32%nat -> length iv = 12%nat -> 16384 < zlen p <= 16384 + 2048 - 16 ->
  exists c, aead_encrypt m key (rfc_nonce iv 0) p (rfc_ad 0 t x03 x03 (zlen p)) = Ok c /\
    fst (read_record m (Reader [RData (e_record t c)] (Some (new_decryptor m key)) 0 [] (Some iv))) = Panic.
Proof.
  intros Hk Hiv Hp.
  assert (E : aead_encrypt m key (rfc_nonce iv 0) p (rfc_ad 0 t x03 x03 (zlen p)) =
              Ok (aead_seal key (rfc_nonce iv 0) (rfc_ad 0 t x03 x03 (zlen p)) p)).
  { apply aead_encrypt_spec; [assumption|apply rfc_nonce_length; assumption|apply fits_record; lia]. }
  eexists. split; [exact E|].
  eapply (overflow_generic m (new_encryptor m key)); [apply aead_opens; assumption|cbn; lia|assumption|apply Hp|cbn [dc_mac_len new_decryptor]; lia|exact E|].
  unfold stream. unfold e_record, wire. cbn [app]. rewrite app_nil_r. reflexivity.
Qed.

Lemma real_straddle m key iv v z :
  length key = 32%nat -> length iv = 12%nat -> length v = 11%nat ->
  exists c, aead_encrypt m key (rfc_nonce iv 0) [z] (rfc_ad 0 HandshakeTy x03 x03 1) = Ok c /\
  fst ((do* _ := read_change_cipher_spec m in do* _ := r_set_decryptor (new_decryptor m key) in read_handshake m)
         (Reader [RData (e_record HandshakeTy ([x14] ++ be 3 12 ++ v) ++ e_record ChangeCipherSpecTy [x01] ++ e_record HandshakeTy c)]
                 None 1 [] (Some iv))) = Ok (finished (v ++ [z])).
Proof.
  intros Hk Hiv Hv.
  assert (E : aead_encrypt m key (rfc_nonce iv 0) [z] (rfc_ad 0 HandshakeTy x03 x03 1) =
              Ok (aead_seal key (rfc_nonce iv 0) (rfc_ad 0 HandshakeTy x03 x03 1) [z])).
  { apply aead_encrypt_spec; [assumption|apply rfc_nonce_length; assumption|apply fits_record; cbn; lia]. }
  eexists. split; [exact E|].
  apply (straddle_generic m (new_encryptor m key)); [apply aead_opens; assumption|cbn; lia|assumption|assumption|exact E].
Qed.

Lemma real_genuine m key iv peer n r :
  length key = 32%nat -> length iv = 12%nat -> sealed_by (new_encryptor m key) iv peer -> zlen peer < 2 ^ 64 ->
  r_dec r = Some (new_decryptor m key) -> r_iv r = Some iv -> r_count r = 0 ->
  (exists rest, app_bytes (map fst peer) = concat (oks (fst (reads (read_application_data m) n r))) ++ rest) \/
  (exists before after k t maj min p,
    let ad := rfc_ad k t maj min (zlen p) in
    let c := aead_seal key (rfc_nonce iv k) ad p in
    0 <= k < 2 ^ 64 /\ all_bytes (r_src r) = before ++ wire t maj min c ++ after /\
    ~ produced iv peer (rfc_nonce iv k) ad c).
Proof.
  intros Hk Hiv Hs Hl Hd Hi Hc.
  destruct (app_data_genuine m _ _ iv peer n r (aead_opens m key Hk) Hiv Hs Hl Hd Hi Hc) as [F|G]; [right|left; exact G].
  destruct F as (before & after & k & t & maj & min & c & p & Hw & Lc & Hk64 & D & NP).
  unfold new_decryptor in *. cbn [dc_decrypt dc_mac_len] in *. change MAC_LEN with 16 in *.
  apply open_iff_seal in D; [|assumption|apply rfc_nonce_length; assumption|apply fits_record; lia].
  assert (Lp : zlen c - 16 = zlen p).
  { rewrite D. unfold zlen. rewrite aead_seal_length. lia. }
  rewrite Lp in *. exists before, after, k, t, maj, min, p. cbv zeta. rewrite <- D. auto.
Qed.
