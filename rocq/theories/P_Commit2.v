(** Proofs for C115: a record of two keys. *)
From Verif Require Export P_Commit Spec_Client.
From Verif Require Import P_Util P_Chacha P_Aead.
From Coq Require Import ZifyBool ZifyNat ZifyN Znumtheory.
Local Open Scope list_scope.
Local Open Scope Z_scope.

Definition key_a : bytes := repeat x00 32.
Definition key_b : bytes := repeat x01 32.
Definition plain_iv : bytes := repeat x00 12.
Definition text_a : bytes := [x47; x78; x52; x40; xf3; xe1; x51; x06; x58; x85; xe1; x0c; x5a; x46; x64; xf2].
Definition text_b : bytes := [x7a; x15; x95; x8b; x89; xca; x99; x45; x17; xd6; xd4; xca; x49; xc4; x20; x22].
Definition text_ct : bytes := [x6f; x4d; x15; xa3; x20; x32; x5f; xe6; x6f; x99; xff; x6c; x7f; xb9; x28; x63].
Definition text_tag : bytes := [xfb; xe3; x4c; x31; x45; xdf; x44; xde; x92; x06; x34; x44; x13; x3f; x58; x32].
Definition text_ad : bytes := rfc_ad 1 ApplicationDataTy x03 x03 16.
(** the specification computes a block from functions, which takes too long; the program computes it from lists *)
Lemma seal_by key nonce ad p f : length key = 32%nat -> length nonce = 12%nat -> fits p -> aead_encrypt Debug key nonce p ad = Ok f -> aead_seal key nonce ad p = f.
Proof. intros K N F E. rewrite aead_encrypt_spec in E by assumption. injection E as E. exact E. Qed.
Lemma seal_a : aead_seal key_a (rfc_nonce plain_iv 1) text_ad text_a = text_ct ++ text_tag.
Proof. apply seal_by; [reflexivity|reflexivity|vm_compute; reflexivity|vm_compute; reflexivity]. Qed.
Lemma seal_b : aead_seal key_b (rfc_nonce plain_iv 1) text_ad text_b = text_ct ++ text_tag.
Proof. apply seal_by; [reflexivity|reflexivity|vm_compute; reflexivity|vm_compute; reflexivity]. Qed.
Lemma block_by key nonce : length key = 32%nat -> length nonce = 12%nat ->
  chacha20_block key 0 nonce = match chacha_new key nonce with Ok v => write_u32_le (round20 v) | _ => [] end.
Proof. intros K N. destruct (chacha_new_spec key nonce K N) as (v & -> & H). rewrite (round20_spec _ _ _ _ H). reflexivity. Qed.
Lemma points_ab : ~ (P1305 | point_of key_a (rfc_nonce plain_iv 1) ^ power_of [] - point_of key_b (rfc_nonce plain_iv 1) ^ power_of []).
Proof.
  unfold point_of, poly_key_gen. rewrite !block_by by reflexivity.
  intros X. apply Z.mod_divide in X; [|discriminate]. revert X. vm_compute. discriminate.
Qed.
#[local] Opaque aead_seal aead_decrypt aead_encrypt chacha20_block.
Lemma sealings_ab : sealing key_a (rfc_nonce plain_iv 1) text_ad text_ct text_tag /\ sealing key_b (rfc_nonce plain_iv 1) text_ad text_ct text_tag.
Proof. split; (split; [reflexivity|]); [exists text_a; exact seal_a|exists text_b; exact seal_b]. Qed.
Theorem two_keys : exists key key' iv k t p q, key <> key' /\ p <> q /\ length key = 32%nat /\ length key' = 32%nat /\ length iv = 12%nat /\
  sealed_record key iv k t p = sealed_record key' iv k t q /\ zlen p = zlen q /\
  forall m, let f := aead_seal key (rfc_nonce iv k) (rfc_ad k t x03 x03 (zlen p)) p in let ad := rfc_ad k t x03 x03 (zlen f - 16) in
    aead_decrypt m key (rfc_nonce iv k) f ad = Ok p /\ aead_decrypt m key' (rfc_nonce iv k) f ad = Ok q.
Proof.
  exists key_a, key_b, plain_iv, 1, ApplicationDataTy, text_a, text_b.
  split; [discriminate|]. split; [discriminate|]. split; [reflexivity|]. split; [reflexivity|]. split; [reflexivity|].
  change (rfc_ad 1 ApplicationDataTy x03 x03 (zlen text_a)) with text_ad. unfold sealed_record.
  change (rfc_ad 1 ApplicationDataTy x03 x03 (zlen text_a)) with text_ad. change (rfc_ad 1 ApplicationDataTy x03 x03 (zlen text_b)) with text_ad.
  rewrite seal_a, seal_b. split; [reflexivity|]. split; [reflexivity|]. intros m. cbv zeta. change (rfc_ad 1 ApplicationDataTy x03 x03 (zlen (text_ct ++ text_tag) - 16)) with text_ad. split.
  - rewrite <- seal_a. apply open_seal; [reflexivity|reflexivity|vm_compute; reflexivity].
  - rewrite <- seal_b. apply open_seal; [reflexivity|reflexivity|vm_compute; reflexivity].
Qed.
(** the same of the program: few values of a block, with tags, that it opens with both keys *)
Theorem few_open : forall m key nonce aad key' nonce' aad' u v bs, length key = 32%nat -> length nonce = 12%nat -> length key' = 32%nat -> length nonce' = 12%nat ->
  (length u mod 16 = 0)%nat -> fits (u ++ repeat x00 32 ++ v) -> NoDup bs ->
  ~ (P1305 | point_of key nonce ^ power_of v - point_of key' nonce' ^ power_of v) ->
  Forall (fun b => length b = 16%nat /\ exists tag p q, length tag = 16%nat /\
    aead_decrypt m key nonce ((u ++ b ++ v) ++ tag) aad = Ok p /\ aead_decrypt m key' nonce' ((u ++ b ++ v) ++ tag) aad' = Ok q) bs ->
  Z.of_nat (length bs) <= 8.
Proof.
  intros m key nonce aad key' nonce' aad' u v bs K1 N1 K2 N2 Lu Ft D N F. apply (few_blocks key nonce aad key' nonce' aad' u v bs Lu D N).
  eapply Forall_impl; [|exact F]. cbn beta. intros b (Lb & tag & p & q & Lt & A & B). split; [exact Lb|]. exists tag.
  assert (Fd : fits ((u ++ b ++ v) ++ tag)).
  { unfold fits in *. rewrite !app_length in *. rewrite repeat_length in Ft. rewrite Lt, Lb. replace (length u + (16 + length v) + 16)%nat with (length u + (32 + length v))%nat by lia. exact Ft. }
  apply open_iff_seal in A; try assumption. apply open_iff_seal in B; try assumption.
  split; (split; [exact Lt|]); [exists p|exists q]; symmetry; assumption.
Qed.
