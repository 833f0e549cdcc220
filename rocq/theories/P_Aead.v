(** ChaCha20-Poly1305: sealing, opening, the MAC input and the tag comparison. *)
From Verif Require Export M_Aead Spec_Record P_Chacha P_Poly2.
From Coq Require Import ZifyBool ZifyNat ZifyN.
#[local] Opaque chacha20_block.

(** ** MAC input *)
Lemma pad16_spec bs : pad16 bs = zeros (pad16_len (length bs)).
Proof.
  unfold pad16, pad16_len. cbv zeta. pose proof (Nat.mod_upper_bound (length bs) 16 ltac:(lia)).
  destruct (Nat.eqb_spec (16 - length bs mod 16) 16) as [E|E].
  - rewrite E. reflexivity.
  - rewrite (Nat.mod_small (16 - length bs mod 16)) by lia. reflexivity.
Qed.
Lemma mac_input_spec ct ad : mac_input ct ad = aead_mac_data ad ct.
Proof. unfold mac_input, aead_mac_data. rewrite !pad16_spec. reflexivity. Qed.

Lemma aead_mac_data_inj ad ct ad' ct' :
  zlen ad < 2 ^ 64 -> zlen ct < 2 ^ 64 -> zlen ad' < 2 ^ 64 -> zlen ct' < 2 ^ 64 ->
  aead_mac_data ad ct = aead_mac_data ad' ct' -> ad = ad' /\ ct = ct'.
Proof.
  unfold aead_mac_data. intros H1 H2 H3 H4 H.
  pose proof (zlen_nonneg ad). pose proof (zlen_nonneg ct). pose proof (zlen_nonneg ad'). pose proof (zlen_nonneg ct').
  rewrite !app_assoc in H.
  apply app_inj_tail_length in H; [|rewrite !le_length; reflexivity]. destruct H as (H & Lc).
  apply app_inj_tail_length in H; [|rewrite !le_length; reflexivity]. destruct H as (H & La).
  apply le_inj in Lc; [|exact (conj (zlen_nonneg _) H2)|exact (conj (zlen_nonneg _) H4)].
  apply le_inj in La; [|exact (conj (zlen_nonneg _) H1)|exact (conj (zlen_nonneg _) H3)].
  assert (Ea : length ad = length ad') by (unfold zlen in La; lia).
  assert (Ec : length ct = length ct') by (unfold zlen in Lc; lia).
  rewrite Ea, Ec, <- !app_assoc in H. apply app_inj_length in H; [|exact Ea]. destruct H as (-> & H). split; [reflexivity|].
  apply app_inj_length in H; [|reflexivity]. destruct H as (_ & H).
  apply app_inj_length in H; [|exact Ec]. apply H.
Qed.

(** ** Tag comparison *)
Lemma lor_bytes_0 a b : 0 <= a -> 0 <= b -> Z.lor a b = 0 <-> a = 0 /\ b = 0.
Proof. intros. apply Z.lor_eq_0_iff. Qed.

Lemma diff_fold a b l acc : 0 <= acc ->
  fold_left (fun diff i => Z.lor diff (b2z (bxor (nth i a x00) (nth i b x00)))) l acc = 0 <->
  acc = 0 /\ forall i, In i l -> nth i a x00 = nth i b x00.
Proof.
  revert acc. induction l as [|j l IH]; intros acc Ha; cbn [fold_left].
  - split; [intros H; split; [exact H|intros i []]|intros (H & _); exact H].
  - rewrite IH by (apply Z.lor_nonneg; split; [exact Ha|apply b2z_range]).
    rewrite Z.lor_eq_0_iff. split.
    + intros ((H0 & Hj) & H). split; [exact H0|]. intros i [->|Hi]; [|auto].
      apply bxor_eq_0. apply b2z_inj. exact Hj.
    + intros (H0 & H). split; [split; [exact H0|]|intros i Hi; apply H; right; exact Hi].
      rewrite (H j (or_introl eq_refl)), bxor_nilpotent. reflexivity.
Qed.

Lemma mac_diff_decides a b : length a = 16%nat -> length b = 16%nat -> mac_diff a b = 0 <-> a = b.
Proof.
  intros La Lb. unfold mac_diff. rewrite diff_fold by lia. split.
  - intros (_ & H). apply (list_eq_nth x00); [congruence|]. intros i Hi. apply H. apply in_seq. unfold MAC_LEN. lia.
  - intros ->. auto.
Qed.

(** ** Sealing *)
Definition fits (plain : bytes) : Prop := 1 + blocks64 (length plain) < 2 ^ 32.

Lemma slice_0_16 l : slice l 0 16 = firstn 16 (firstn 32 l).
Proof. unfold slice. cbn [skipn Nat.sub]. rewrite firstn_firstn. reflexivity. Qed.
Lemma slice_16_32 l : slice l 16 32 = skipn 16 (firstn 32 l).
Proof. unfold slice. cbn [Nat.sub]. change 32%nat with (16 + 16)%nat at 1. rewrite skipn_firstn_comm. reflexivity. Qed.

Lemma compute_mac_spec m key nonce ct ad :
  compute_mac m (chacha20_block key 0 nonce) ct ad =
  Ok (poly1305_mac (aead_mac_data ad ct) (firstn 16 (poly_key_gen key nonce)) (skipn 16 (poly_key_gen key nonce))).
Proof.
  unfold compute_mac, poly_key_gen. rewrite slice_0_16, slice_16_32, mac_input_spec.
  apply authenticate_spec.
  - rewrite !firstn_length, chacha20_block_length. reflexivity.
  - rewrite skipn_length, firstn_length, chacha20_block_length. reflexivity.
Qed.

Lemma aead_encrypt_spec m key nonce plain ad : length key = 32%nat -> length nonce = 12%nat -> fits plain ->
  aead_encrypt m key nonce plain ad = Ok (aead_seal key nonce ad plain).
Proof.
  intros Hk Hn Hp. unfold aead_encrypt.
  destruct (chacha_new_spec key nonce Hk Hn) as (v & -> & H0). cbn [rbind].
  destruct (chacha_next_ok m key nonce 0 v H0) as (v1 & -> & H1); [lia|]. cbn [rbind].
  destruct (chacha_encrypt_ok m key nonce 1 v1 plain H1 Hp) as (v2 & -> & _). cbn [rbind].
  rewrite compute_mac_spec. reflexivity.
Qed.

Lemma aead_seal_length key nonce ad plain : length (aead_seal key nonce ad plain) = (length plain + 16)%nat.
Proof.
  unfold aead_seal. cbv zeta. rewrite app_length, chacha20_encrypt_length, poly1305_mac_length. reflexivity.
Qed.

(** ** Opening *)
Lemma aead_decrypt_short m key nonce data ad : (length data < 16)%nat -> aead_decrypt m key nonce data ad = Err BadRecordMac.
Proof. intros H. unfold aead_decrypt, MAC_LEN. cbv zeta. destruct (Nat.ltb_spec (length data) 16); [reflexivity|lia]. Qed.

Lemma aead_decrypt_eq m key nonce ct tag ad : length key = 32%nat -> length nonce = 12%nat -> fits ct -> length tag = 16%nat ->
  aead_decrypt m key nonce (ct ++ tag) ad =
  if mac_diff (poly1305_mac (aead_mac_data ad ct) (firstn 16 (poly_key_gen key nonce)) (skipn 16 (poly_key_gen key nonce))) tag =? 0
  then Ok (chacha20_encrypt key 1 nonce ct) else Err BadRecordMac.
Proof.
  intros Hk Hn Hp Ht. unfold aead_decrypt, MAC_LEN. cbv zeta.
  assert (L : length (ct ++ tag) = (length ct + 16)%nat) by (rewrite app_length; lia). rewrite L.
  destruct (Nat.ltb_spec (length ct + 16) 16); [lia|].
  replace (length ct + 16 - 16)%nat with (length ct) by lia.
  rewrite firstn_app, firstn_all, Nat.sub_diag, firstn_O, app_nil_r.
  rewrite skipn_app, skipn_all, Nat.sub_diag, skipn_O. cbn [app].
  destruct (chacha_new_spec key nonce Hk Hn) as (v & -> & H0). cbn [rbind].
  destruct (chacha_next_ok m key nonce 0 v H0) as (v1 & -> & H1); [lia|]. cbn [rbind].
  rewrite compute_mac_spec. cbn [rbind].
  destruct (chacha_encrypt_ok m key nonce 1 v1 ct H1 Hp) as (v2 & -> & _). cbn [rbind]. reflexivity.
Qed.

Lemma fits_encrypt key n nonce p : fits p -> fits (chacha20_encrypt key n nonce p).
Proof. unfold fits. rewrite chacha20_encrypt_length. auto. Qed.

Lemma open_seal m key nonce ad plain : length key = 32%nat -> length nonce = 12%nat -> fits plain ->
  aead_decrypt m key nonce (aead_seal key nonce ad plain) ad = Ok plain.
Proof.
  intros Hk Hn Hp. unfold aead_seal. cbv zeta.
  rewrite aead_decrypt_eq; [|assumption|assumption|apply fits_encrypt; assumption|apply poly1305_mac_length].
  replace (mac_diff _ _) with 0.
  - cbn [Z.eqb]. rewrite chacha20_encrypt_involutive. reflexivity.
  - symmetry. apply mac_diff_decides; try apply poly1305_mac_length. reflexivity.
Qed.

Lemma split_tail (l : bytes) : (16 <= length l)%nat -> exists a b, l = a ++ b /\ length b = 16%nat.
Proof.
  intros H. exists (firstn (length l - 16) l), (skipn (length l - 16) l). split; [symmetry; apply firstn_skipn|].
  rewrite skipn_length. lia.
Qed.

(** the complete decision: opening answers [Ok p] exactly on the sealing of [p], and refuses everything else
    with [BadRecordMac] *)
Lemma open_iff_seal m key nonce ad data plain : length key = 32%nat -> length nonce = 12%nat -> fits data ->
  aead_decrypt m key nonce data ad = Ok plain <-> data = aead_seal key nonce ad plain.
Proof.
  intros Hk Hn Hd.
  destruct (Nat.lt_ge_cases (length data) 16) as [S|S].
  { rewrite aead_decrypt_short by exact S. split; [discriminate|]. intros ->. rewrite aead_seal_length in S. lia. }
  destruct (split_tail data S) as (ct & tag & -> & Lt).
  assert (Hc : fits ct).
  { unfold fits in *. rewrite app_length, Lt in Hd. unfold blocks64 in *.
    assert ((Z.of_nat (length ct) + 63) / 64 <= (Z.of_nat (length ct + 16) + 63) / 64) by (apply Z.div_le_mono; lia). lia. }
  rewrite aead_decrypt_eq by assumption.
  set (tg := poly1305_mac _ _ _). assert (Ltg : length tg = 16%nat) by apply poly1305_mac_length.
  destruct (Z.eqb_spec (mac_diff tg tag) 0) as [E|E].
  - apply mac_diff_decides in E; [|assumption|assumption]. split.
    + intros H. injection H as <-. unfold aead_seal. cbv zeta. rewrite chacha20_encrypt_involutive. rewrite <- E. reflexivity.
    + intros H. unfold aead_seal in H. cbv zeta in H. apply app_inj_tail_length in H; [|rewrite poly1305_mac_length; exact Lt].
      destruct H as (-> & _). rewrite chacha20_encrypt_involutive. reflexivity.
  - split; [discriminate|]. intros H. exfalso. apply E. apply mac_diff_decides; [assumption|assumption|].
    unfold aead_seal in H. cbv zeta in H. apply app_inj_tail_length in H; [|rewrite poly1305_mac_length; exact Lt].
    destruct H as (Ec & ->). unfold tg. rewrite Ec. reflexivity.
Qed.

Lemma open_outcomes m key nonce ad data : length key = 32%nat -> length nonce = 12%nat -> fits data ->
  (exists plain, aead_decrypt m key nonce data ad = Ok plain) \/ aead_decrypt m key nonce data ad = Err BadRecordMac.
Proof.
  intros Hk Hn Hd.
  destruct (Nat.lt_ge_cases (length data) 16) as [S|S]; [right; apply aead_decrypt_short; exact S|].
  destruct (split_tail data S) as (ct & tag & -> & Lt).
  assert (Hc : fits ct).
  { unfold fits in *. rewrite app_length, Lt in Hd. unfold blocks64 in *.
    assert ((Z.of_nat (length ct) + 63) / 64 <= (Z.of_nat (length ct + 16) + 63) / 64) by (apply Z.div_le_mono; lia). lia. }
  rewrite aead_decrypt_eq by assumption. destruct (Z.eqb _ _); eauto.
Qed.

(** ** The record layer's assumptions hold of the real cipher *)
Lemma fits_record p : zlen p <= 2 ^ 24 -> fits p.
Proof.
  unfold fits, blocks64, zlen. intros H.
  assert ((Z.of_nat (length p) + 63) / 64 < 2 ^ 31) by (apply Z.div_lt_upper_bound; lia). lia.
Qed.

Lemma aead_opens m key : length key = 32%nat -> opens (new_encryptor m key) (new_decryptor m key).
Proof.
  intros Hk n p a Hn _ Hp. exists (aead_seal key n a p). unfold new_encryptor, new_decryptor. cbn [dc_mac_len dc_decrypt].
  assert (fits p) by (apply fits_record; lia).
  split; [apply aead_encrypt_spec; assumption|]. split; [|apply open_seal; assumption].
  unfold zlen. rewrite aead_seal_length. lia.
Qed.
Lemma aead_seals m key : length key = 32%nat -> seals (new_encryptor m key) 16.
Proof.
  intros Hk n p a Hn _ Hp. exists (aead_seal key n a p). unfold new_encryptor.
  assert (fits p) by (apply fits_record; lia).
  split; [apply aead_encrypt_spec; assumption|]. unfold zlen. rewrite aead_seal_length. lia.
Qed.
