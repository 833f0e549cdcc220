(** C92: the cipher interface on its own. *)
From Verif Require Import Spec_Cipher P_Util P_Codec P_Chacha P_Aead.
From Coq Require Import ZifyBool ZifyNat ZifyN.
Local Open Scope list_scope.
Local Open Scope Z_scope.
#[local] Opaque chacha20_block poly1305_mac.

Lemma wrapping_length key n nonce data : length (wrapping_encrypt key n nonce data) = length data.
Proof. unfold wrapping_encrypt. rewrite map_length, seq_length. reflexivity. Qed.
Lemma wrapping_mod key n nonce data : wrapping_encrypt key (n mod 2 ^ 32) nonce data = wrapping_encrypt key n nonce data.
Proof. apply map_ext. intros i. unfold wrapping_stream. rewrite Z.add_mod_idemp_l by lia. reflexivity. Qed.
Lemma wrapping_cut key n nonce data : data <> [] ->
  wrapping_encrypt key n nonce data = xor_zip (chacha20_block key (n mod 2 ^ 32) nonce) (firstn 64 data) ++ wrapping_encrypt key (n + 1) nonce (skipn 64 data).
Proof.
  intros Hd. rewrite xor_zip_map by (rewrite chacha20_block_length, firstn_length; lia). unfold wrapping_encrypt.
  replace (length data) with (length (firstn 64 data) + length (skipn 64 data))%nat at 1 by (rewrite <- app_length, firstn_skipn; reflexivity).
  rewrite seq_app, map_app. apply f_equal2.
  - apply map_ext_in. intros i Hi. apply in_seq in Hi. rewrite firstn_length in Hi.
    unfold wrapping_stream. rewrite Nat.mod_small, Nat.div_small by lia. rewrite Z.add_0_r.
    f_equal. rewrite <- (firstn_skipn 64 data) at 1. apply app_nth1. rewrite firstn_length. lia.
  - destruct (Nat.le_gt_cases (length data) 64).
    + rewrite skipn_all2 by lia. cbn [length seq map]. reflexivity.
    + assert (L : length (firstn 64 data) = 64%nat) by (rewrite firstn_length; lia). rewrite L.
      rewrite Nat.add_0_l. rewrite map_seq_shift. apply map_ext. intros i. apply f_equal2.
      * rewrite <- (firstn_skipn 64 data) at 1. rewrite app_nth2 by lia. f_equal. lia.
      * unfold wrapping_stream. replace (64 + i)%nat with (i + 1 * 64)%nat by lia. rewrite Nat.mod_add, Nat.div_add by lia.
        replace (n + Z.of_nat (i / 64 + 1)) with (n + 1 + Z.of_nat (i / 64)) by lia. reflexivity.
Qed.
(** a release build never stops *)
Lemma chacha_release key nonce data : forall n v, chacha_at key nonce n v -> exists v', chacha_encrypt Release v data = Ok (wrapping_encrypt key n nonce data, v').
Proof.
  unfold chacha_encrypt. assert (H64 : (0 < 64)%nat) by lia.
  induction data as [|data Hd IH] using (chunks_ind 64 H64); intros n v H; [exists v; reflexivity|].
  rewrite chunks_cons by assumption. cbn [chacha_chunks].
  assert (Nx : exists v1 n1, chacha_next Release v = Ok (chacha20_block key n nonce, v1) /\ chacha_at key nonce n1 v1 /\ n1 = (n + 1) mod 2 ^ 32).
  { destruct (Z.eq_dec n (2 ^ 32 - 1)) as [->|N].
    - destruct (chacha_next_last key nonce v H) as (_ & v1 & E & H1). exists v1, 0. auto.
    - assert (B : 0 <= n < 2 ^ 32) by (destruct H; lia). destruct (chacha_next_ok Release key nonce n v H) as (v1 & E & H1); [lia|]. exists v1, (n + 1). rewrite Z.mod_small by lia. auto. }
  destruct Nx as (v1 & n1 & -> & H1 & ->). cbn [rbind]. destruct (IH _ v1 H1) as (v2 & ->). cbn [rbind]. exists v2. rewrite wrapping_mod.
  rewrite (wrapping_cut key n nonce data) by assumption. rewrite (Z.mod_small n) by (destruct H; lia). reflexivity.
Qed.
Lemma stream_same key n nonce data : 0 <= n -> n + blocks64 (length data) <= 2 ^ 32 -> wrapping_encrypt key n nonce data = chacha20_encrypt key n nonce data.
Proof.
  intros Hn H. apply map_ext_in. intros i Hi. apply in_seq in Hi. unfold wrapping_stream, keystream. rewrite Z.mod_small; [reflexivity|].
  split; [lia|]. unfold blocks64 in H. pose proof (Nat.div_mod i 64 ltac:(lia)) as D. 
  assert (Z.of_nat (i / 64) + 1 <= (Z.of_nat (length data) + 63) / 64); [|lia]. apply Z.div_le_lower_bound; lia.
Qed.
Lemma blocks_bound (data : bytes) k : 0 <= k -> (blocks64 (length data) <= k <-> zlen data <= 64 * k).
Proof.
  intros K. unfold blocks64, zlen. split; intros H.
  - pose proof (Z.mul_succ_div_gt (Z.of_nat (length data) + 63) 64 ltac:(lia)). lia.
  - apply Z.lt_succ_r. apply Z.div_lt_upper_bound; lia.
Qed.
Lemma takes_iff m data : takes m data <-> (m = Debug -> fits data).
Proof.
  unfold takes, fits, rfc_p_max. destruct m; [|split; [discriminate|auto]]. pose proof (blocks_bound data (2 ^ 32 - 2) ltac:(lia)) as B. split.
  - intros H _. assert (blocks64 (length data) <= 2 ^ 32 - 2) by (apply B; lia). lia.
  - intros H. specialize (H eq_refl). assert (zlen data <= 64 * (2 ^ 32 - 2)) by (apply B; lia). lia.
Qed.
Lemma whole_stream m key nonce data v : chacha_at key nonce 1 v ->
  if match m with Debug => zlen data <=? rfc_p_max - 64 | Release => true end then exists v', chacha_encrypt m v data = Ok (wrapping_encrypt key 1 nonce data, v') else chacha_encrypt m v data = Panic.
Proof.
  intros H. destruct m; [|apply chacha_release; exact H]. destruct (Z.leb_spec (zlen data) (rfc_p_max - 64)) as [L|L].
  - assert (F : fits data) by (apply (takes_iff Debug); [exact L|reflexivity]). unfold fits in F. destruct (chacha_encrypt_ok Debug key nonce 1 v data H F) as (v' & -> & _). exists v'. assert (W : wrapping_encrypt key 1 nonce data = chacha20_encrypt key 1 nonce data) by (apply stream_same; [discriminate|apply Z.lt_le_incl; exact F]). rewrite W. reflexivity.
  - apply (chacha_encrypt_overflow key nonce 1 v data H). unfold rfc_p_max in L. pose proof (blocks_bound data (2 ^ 32 - 2) ltac:(lia)) as B. assert (~ blocks64 (length data) <= 2 ^ 32 - 2) by (rewrite B; lia). lia.
Qed.
Lemma lengths_dec (key nonce : bytes) : (length key = 32%nat /\ length nonce = 12%nat) \/ (length key <> 32%nat \/ length nonce <> 12%nat).
Proof. lia. Qed.
(** ** The encryptor, on all inputs *)
Theorem encrypts m key nonce data ad : length key = 32%nat -> length nonce = 12%nat -> takes m data -> a_new_encryptor (ChaCha20Poly1305 m) key nonce data ad = Ok (wrapping_seal key nonce ad data).
Proof.
  intros Hk Hn T. cbn [a_new_encryptor ChaCha20Poly1305]. unfold new_encryptor, aead_encrypt. destruct (chacha_new_spec key nonce Hk Hn) as (v & -> & H0). cbn [rbind].
  destruct (chacha_next_ok m key nonce 0 v H0) as (v1 & -> & H1); [lia|]. cbn [rbind]. pose proof (whole_stream m key nonce data v1 H1) as W.
  replace (match m with Debug => zlen data <=? rfc_p_max - 64 | Release => true end) with true in W by (destruct m; [symmetry; apply Z.leb_le; exact T|reflexivity]).
  destruct W as (v' & ->). cbn [rbind]. rewrite compute_mac_spec. reflexivity.
Qed.
Theorem encrypt_panics m key nonce data ad : length key <> 32%nat \/ length nonce <> 12%nat \/ ~ takes m data -> a_new_encryptor (ChaCha20Poly1305 m) key nonce data ad = Panic.
Proof.
  intros H. cbn [a_new_encryptor ChaCha20Poly1305]. unfold new_encryptor, aead_encrypt. destruct (lengths_dec key nonce) as [[Hk Hn]|L].
  2:{ rewrite (proj2 (chacha_new_lengths key nonce) L). reflexivity. }
  destruct H as [H|[H|T]]; [contradiction|contradiction|]. destruct (chacha_new_spec key nonce Hk Hn) as (v & -> & H0). cbn [rbind].
  destruct (chacha_next_ok m key nonce 0 v H0) as (v1 & -> & H1); [lia|]. cbn [rbind]. pose proof (whole_stream m key nonce data v1 H1) as W.
  replace (match m with Debug => zlen data <=? rfc_p_max - 64 | Release => true end) with false in W by (destruct m; [symmetry; apply Z.leb_gt; cbn [takes] in T; lia|destruct (T I)]).
  rewrite W. reflexivity.
Qed.
(** ** The decryptor, on all inputs *)
Theorem decrypt_short m key nonce data ad : zlen data < 16 -> dc_decrypt (a_new_decryptor (ChaCha20Poly1305 m) key) nonce data ad = Err BadRecordMac.
Proof. intros H. apply aead_decrypt_short. unfold zlen in H. lia. Qed.
Theorem decrypts m key nonce ct tag ad : length key = 32%nat -> length nonce = 12%nat -> length tag = 16%nat -> takes m ct ->
  (tag = wrapping_tag key nonce ad ct -> dc_decrypt (a_new_decryptor (ChaCha20Poly1305 m) key) nonce (ct ++ tag) ad = Ok (wrapping_encrypt key 1 nonce ct)) /\
  (tag <> wrapping_tag key nonce ad ct -> dc_decrypt (a_new_decryptor (ChaCha20Poly1305 m) key) nonce (ct ++ tag) ad = Err BadRecordMac).
Proof.
  intros Hk Hn Ht T. assert (E : dc_decrypt (a_new_decryptor (ChaCha20Poly1305 m) key) nonce (ct ++ tag) ad = if mac_diff (wrapping_tag key nonce ad ct) tag =? 0 then Ok (wrapping_encrypt key 1 nonce ct) else Err BadRecordMac).
  { cbn [a_new_decryptor ChaCha20Poly1305 new_decryptor dc_decrypt]. unfold aead_decrypt, MAC_LEN. cbv zeta. assert (L : length (ct ++ tag) = (length ct + 16)%nat) by (rewrite app_length; lia). rewrite L.
    destruct (Nat.ltb_spec (length ct + 16) 16); [lia|]. replace (length ct + 16 - 16)%nat with (length ct) by lia.
    rewrite firstn_app, firstn_all, Nat.sub_diag, firstn_O, app_nil_r. rewrite skipn_app, skipn_all, Nat.sub_diag, skipn_O. cbn [app].
    destruct (chacha_new_spec key nonce Hk Hn) as (v & -> & H0). cbn [rbind]. destruct (chacha_next_ok m key nonce 0 v H0) as (v1 & -> & H1); [lia|]. cbn [rbind].
    rewrite compute_mac_spec. cbn [rbind]. pose proof (whole_stream m key nonce ct v1 H1) as W.
    replace (match m with Debug => zlen ct <=? rfc_p_max - 64 | Release => true end) with true in W by (destruct m; [symmetry; apply Z.leb_le; exact T|reflexivity]).
    destruct W as (v' & ->). reflexivity. }
  assert (D : mac_diff (wrapping_tag key nonce ad ct) tag = 0 <-> wrapping_tag key nonce ad ct = tag) by (apply mac_diff_decides; [apply poly1305_mac_length|exact Ht]).
  rewrite E. split; intros X; destruct (Z.eqb_spec (mac_diff (wrapping_tag key nonce ad ct) tag) 0) as [Y|Y]; try reflexivity.
  - exfalso. apply Y, D. auto.
  - exfalso. apply X. symmetry. apply D, Y.
Qed.
Theorem decrypt_panics m key nonce ct tag ad : length tag = 16%nat -> length key <> 32%nat \/ length nonce <> 12%nat \/ ~ takes m ct -> dc_decrypt (a_new_decryptor (ChaCha20Poly1305 m) key) nonce (ct ++ tag) ad = Panic.
Proof.
  intros Ht H. cbn [a_new_decryptor ChaCha20Poly1305 new_decryptor dc_decrypt]. unfold aead_decrypt, MAC_LEN. cbv zeta. assert (L : length (ct ++ tag) = (length ct + 16)%nat) by (rewrite app_length; lia). rewrite L.
  destruct (Nat.ltb_spec (length ct + 16) 16) as [Q|_]; [lia|]. replace (length ct + 16 - 16)%nat with (length ct) by lia.
  rewrite firstn_app, firstn_all, Nat.sub_diag, firstn_O, app_nil_r. rewrite skipn_app, skipn_all, Nat.sub_diag, skipn_O. cbn [app].
  destruct (lengths_dec key nonce) as [[Hk Hn]|Lx].
  2:{ rewrite (proj2 (chacha_new_lengths key nonce) Lx). reflexivity. }
  destruct H as [H|[H|T]]; [contradiction|contradiction|]. destruct (chacha_new_spec key nonce Hk Hn) as (v & -> & Z0). cbn [rbind].
  destruct (chacha_next_ok m key nonce 0 v Z0) as (v1 & -> & H1); [lia|]. cbn [rbind]. rewrite compute_mac_spec. cbn [rbind]. pose proof (whole_stream m key nonce ct v1 H1) as W.
  replace (match m with Debug => zlen ct <=? rfc_p_max - 64 | Release => true end) with false in W by (destruct m; [symmetry; apply Z.leb_gt; cbn [takes] in T; lia|destruct (T I)]).
  rewrite W. reflexivity.
Qed.
(** ** Up to the limit of the standard it is the standard's cipher *)
Theorem within_limit key nonce ad data : zlen data <= rfc_p_max -> wrapping_seal key nonce ad data = aead_seal key nonce ad data.
Proof.
  intros H. unfold wrapping_seal, aead_seal. cbv zeta. rewrite stream_same; [reflexivity|lia|]. unfold rfc_p_max in H. pose proof (proj2 (blocks_bound data (2 ^ 32 - 1) ltac:(lia)) ltac:(lia)). lia.
Qed.
(** the largest data the standard allows makes a debug build panic *)
Theorem largest_panics key nonce ad : exists data, zlen data = rfc_p_max /\ a_new_encryptor (ChaCha20Poly1305 Debug) key nonce data ad = Panic.
Proof.
  exists (repeat x00 (Z.to_nat rfc_p_max)). assert (L : zlen (repeat x00 (Z.to_nat rfc_p_max)) = rfc_p_max) by (unfold zlen; rewrite repeat_length; apply Z2Nat.id; unfold rfc_p_max; lia).
  split; [exact L|]. apply encrypt_panics. right. right. cbn [takes]. lia.
Qed.
Lemma wrapping_nth key n nonce data i : (i < length data)%nat -> nth i (wrapping_encrypt key n nonce data) x00 = bxor (nth i data x00) (wrapping_stream key nonce n i).
Proof.
  intros Hi. unfold wrapping_encrypt. rewrite (nth_indep _ x00 (bxor (nth 0 data x00) (wrapping_stream key nonce n 0))) by (rewrite map_length, seq_length; exact Hi).
  rewrite (map_nth (fun i => bxor (nth i data x00) (wrapping_stream key nonce n i))), seq_nth by exact Hi. reflexivity.
Qed.
(** beyond it, a release build gives away the authentication key of the message *)
Theorem key_exposed key nonce data ad i c : length key = 32%nat -> length nonce = 12%nat -> (i < 32)%nat -> rfc_p_max + Z.of_nat i < zlen data ->
  a_new_encryptor (ChaCha20Poly1305 Release) key nonce data ad = Ok c ->
  let at_end := (Z.to_nat rfc_p_max + i)%nat in nth i (poly_key_gen key nonce) x00 = bxor (nth at_end c x00) (nth at_end data x00).
Proof.
  intros Hk Hn Hi L E at_end. rewrite encrypts in E by (auto; exact I). apply Ok_inj in E. subst c.
  assert (Ln : (at_end < length data)%nat) by (unfold at_end, zlen, rfc_p_max in *; lia).
  unfold wrapping_seal. cbv zeta. rewrite app_nth1 by (rewrite wrapping_length; exact Ln). rewrite wrapping_nth by exact Ln.
  assert (M : at_end = (i + Z.to_nat (2 ^ 32 - 1) * 64)%nat) by (unfold at_end, rfc_p_max; lia).
  unfold wrapping_stream. rewrite M, Nat.mod_add, Nat.div_add by lia. rewrite Nat.mod_small, Nat.div_small by lia. cbn [Nat.add]. rewrite Z2Nat.id by lia.
  replace ((1 + (2 ^ 32 - 1)) mod 2 ^ 32) with 0 by reflexivity. rewrite <- M. unfold poly_key_gen. 
  replace (nth i (firstn 32 (chacha20_block key 0 nonce)) x00) with (nth i (chacha20_block key 0 nonce) x00) by (rewrite <- (firstn_skipn 32 (chacha20_block key 0 nonce)) at 1; apply app_nth1; rewrite firstn_length, chacha20_block_length; lia).
  set (a := nth at_end data x00). set (b := nth i _ x00). rewrite (bxor_comm a b). symmetry. apply bxor_cancel_r.
Qed.
Lemma wrapping_involutive key n nonce data : wrapping_encrypt key n nonce (wrapping_encrypt key n nonce data) = data.
Proof.
  apply (list_eq_nth x00); rewrite !wrapping_length; [reflexivity|]. intros i Hi. rewrite !wrapping_nth by (rewrite ?wrapping_length; exact Hi). apply bxor_cancel_r.
Qed.
(** what one end seals the other opens, whatever its size *)
Theorem opens_own m key nonce data ad c : a_new_encryptor (ChaCha20Poly1305 m) key nonce data ad = Ok c -> dc_decrypt (a_new_decryptor (ChaCha20Poly1305 m) key) nonce c ad = Ok data /\ zlen c = zlen data + a_mac_len (ChaCha20Poly1305 m).
Proof.
  intros E. destruct (lengths_dec key nonce) as [[Hk Hn]|L]; [|rewrite encrypt_panics in E by tauto; discriminate E].
  assert (T : takes m data \/ ~ takes m data) by (destruct m; cbn [takes]; [lia|tauto]). destruct T as [T|T]; [|rewrite encrypt_panics in E by tauto; discriminate E].
  rewrite encrypts in E by assumption. apply Ok_inj in E. subst c. unfold wrapping_seal. cbv zeta.
  assert (Lt : length (wrapping_tag key nonce ad (wrapping_encrypt key 1 nonce data)) = 16%nat) by apply poly1305_mac_length. split.
  - destruct (decrypts m key nonce (wrapping_encrypt key 1 nonce data) (wrapping_tag key nonce ad (wrapping_encrypt key 1 nonce data)) ad Hk Hn Lt) as [D _].
    + destruct m; [|exact I]. cbn [takes] in *. unfold zlen in *. rewrite wrapping_length. exact T.
    + rewrite (D eq_refl), wrapping_involutive. reflexivity.
  - rewrite zlen_app. unfold zlen. rewrite Lt, wrapping_length. reflexivity.
Qed.
(** ** The suites *)
Lemma suites m c : match c with UnknownCipherSuite => suite_aead m c = Panic /\ suite_kex m c = Panic | _ => suite_aead m c = Ok (ChaCha20Poly1305 m) /\ suite_kex m c = Ok (compute_keys m) end.
Proof. destruct c; split; reflexivity. Qed.
Theorem suite_read m a b rest c : tls_read i_cipher_suite (a :: b :: rest) = Ok (c, rest) ->
  ((exists d, suite_aead m c = Ok d) <-> a = xcc /\ b = xa8) /\ ((exists k, suite_kex m c = Ok k) <-> a = xcc /\ b = xa8).
Proof.
  intros E. assert (X : (c = TLS_ECDHE_RSA_WITH_CHACHA20_POLY1305_SHA256 /\ a = xcc /\ b = xa8) \/ (c = UnknownCipherSuite /\ ~ (a = xcc /\ b = xa8))).
  { clear m. change (tls_read i_cipher_suite (a :: b :: rest)) with (if (b2z a =? 204) && (b2z b =? 168) then Ok (TLS_ECDHE_RSA_WITH_CHACHA20_POLY1305_SHA256, rest) else Ok (UnknownCipherSuite, rest)) in E.
    destruct (Z.eqb_spec (b2z a) 204) as [A|A], (Z.eqb_spec (b2z b) 168) as [B|B]; cbn [andb] in E; apply Ok_inj in E; apply pair_equal_spec in E as [<- _].
    - left. split; [reflexivity|]. split; [rewrite <- (z2b_b2z a), A|rewrite <- (z2b_b2z b), B]; reflexivity.
    - right. split; [reflexivity|]. intros [-> ->]. apply B. reflexivity.
    - right. split; [reflexivity|]. intros [-> ->]. apply A. reflexivity.
    - right. split; [reflexivity|]. intros [-> ->]. apply A. reflexivity. }
  destruct X as [(-> & A)|(-> & A)]; cbn [suite_aead suite_kex].
  - split; split; eauto.
  - split; split; [intros (? & ?); discriminate|tauto|intros (? & ?); discriminate|tauto].
Qed.
Theorem suite_parameters m c d : suite_aead m c = Ok d -> a_key_size d = rfc_key_length /\ a_mac_len d = rfc_tag_length /\ (forall key, dc_mac_len (a_new_decryptor d key) = a_mac_len d) /\
  suite_verify_data_len c = rfc_verify_data_length /\ a_fixed_iv_len d = rfc_record_iv_length.
Proof. destruct c; [|discriminate]. intros E. apply Ok_inj in E. subst d. repeat split. Qed.
Theorem fixed_iv m c d : suite_aead m c = Ok d -> a_fixed_iv_len d <> rfc_fixed_iv_length.
Proof. destruct c; [|discriminate]. intros E. apply Ok_inj in E. subst d. discriminate. Qed.
Theorem debug_limit : exists key nonce data ad, length key = 32%nat /\ length nonce = 12%nat /\ zlen data <= rfc_p_max /\
  a_new_encryptor (ChaCha20Poly1305 Debug) key nonce data ad <> Ok (aead_seal key nonce ad data).
Proof.
  destruct (largest_panics (zeros 32) (zeros 12) []) as (data & L & E). exists (zeros 32), (zeros 12), data, []. rewrite E, L. repeat split; discriminate.
Qed.
Theorem release_limit : exists key nonce data ad c, length key = 32%nat /\ length nonce = 12%nat /\ rfc_p_max + 32 <= zlen data /\
  a_new_encryptor (ChaCha20Poly1305 Release) key nonce data ad = Ok c.
Proof.
  exists (zeros 32), (zeros 12), (repeat x00 (Z.to_nat (rfc_p_max + 32))), []. eexists. split; [reflexivity|]. split; [reflexivity|].
  split; [unfold zlen; rewrite repeat_length, Z2Nat.id by discriminate; apply Z.le_refl|]. apply encrypts; [reflexivity|reflexivity|exact I].
Qed.
Theorem fixed_iv_differs : exists m c d, suite_aead m c = Ok d /\ a_fixed_iv_len d <> rfc_fixed_iv_length.
Proof. exists Debug, TLS_ECDHE_RSA_WITH_CHACHA20_POLY1305_SHA256, (ChaCha20Poly1305 Debug). split; [reflexivity|]. exact (fixed_iv Debug TLS_ECDHE_RSA_WITH_CHACHA20_POLY1305_SHA256 _ eq_refl). Qed.
(** the key stream comes again after 2^38 bytes, so that data under one nonce are exposed long before the 2^70 bytes of the comment in
    src/crypto/chacha20.rs:94 *)
Theorem stream_repeats key nonce data n v c v' i : chacha_at key nonce n v -> chacha_encrypt Release v data = Ok (c, v') -> (i + Z.to_nat (2 ^ 38) < length data)%nat ->
  bxor (nth i c x00) (nth (i + Z.to_nat (2 ^ 38)) c x00) = bxor (nth i data x00) (nth (i + Z.to_nat (2 ^ 38)) data x00).
Proof.
  intros H E L. destruct (chacha_release key nonce data n v H) as (v2 & E2). rewrite E2 in E. apply Ok_inj in E. apply pair_equal_spec in E as [<- _]. clear E2.
  set (N := Z.to_nat (2 ^ 38)) in *. assert (Li : (i < length data)%nat) by lia. rewrite !wrapping_nth by assumption.
  assert (W : wrapping_stream key nonce n (i + N) = wrapping_stream key nonce n i).
  { unfold wrapping_stream. replace N with (Z.to_nat (2 ^ 32) * 64)%nat by (unfold N; lia). rewrite Nat.mod_add, Nat.div_add by lia.
    replace (n + Z.of_nat (i / 64 + Z.to_nat (2 ^ 32))) with (n + Z.of_nat (i / 64) + 1 * 2 ^ 32) by lia. rewrite Z.mod_add by lia. reflexivity. }
  rewrite W. set (k := wrapping_stream key nonce n i). set (a := nth i data x00). set (b := nth (i + N) data x00).
  rewrite (bxor_comm b k), bxor_assoc. f_equal. apply bxor_cancel_r.
Qed.
