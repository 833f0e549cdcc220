(** C115: ciphertexts that open under two keys. *)
From Verif Require Import Spec_Commit Spec_Client Spec_Face P_Aead P_Commit P_Commit2 P_Commit3.
From Coq Require Import ZifyBool ZifyNat ZifyN.
Local Open Scope list_scope.
Local Open Scope Z_scope.

(** ** C115 *)
(** of the ciphertexts that differ in one block only, at most eight have a tag with which they are sealings under both of two keys *)
Theorem C115_few : forall key nonce aad key' nonce' aad' u v bs, (length u mod 16 = 0)%nat -> NoDup bs ->
  ~ (P1305 | point_of key nonce ^ power_of v - point_of key' nonce' ^ power_of v) ->
  Forall (fun b => length b = 16%nat /\ exists tag, sealing key nonce aad (u ++ b ++ v) tag /\ sealing key' nonce' aad' (u ++ b ++ v) tag) bs ->
  Z.of_nat (length bs) <= 8.
Proof. exact few_blocks. Qed.
Print Assumptions C115_few.
(** the same of the program: with some tag it opens at most eight of them with both keys *)
Theorem C115_few_open : forall m key nonce aad key' nonce' aad' u v bs, length key = 32%nat -> length nonce = 12%nat -> length key' = 32%nat -> length nonce' = 12%nat ->
  (length u mod 16 = 0)%nat -> fits (u ++ repeat x00 32 ++ v) -> NoDup bs ->
  ~ (P1305 | point_of key nonce ^ power_of v - point_of key' nonce' ^ power_of v) ->
  Forall (fun b => length b = 16%nat /\ exists tag p q, length tag = 16%nat /\
    aead_decrypt m key nonce ((u ++ b ++ v) ++ tag) aad = Ok p /\ aead_decrypt m key' nonce' ((u ++ b ++ v) ++ tag) aad' = Ok q) bs ->
  Z.of_nat (length bs) <= 8.
Proof. exact few_open. Qed.
Print Assumptions C115_few_open.
(** so of data that differ in one block, at most eight make a record that is a sealing under another key as well *)
Theorem C115_reflected : forall key iv k key' iv' k' t u v bs, (length u mod 16 = 0)%nat -> NoDup bs ->
  ~ (P1305 | point_of key (rfc_nonce iv k) ^ power_of v - point_of key' (rfc_nonce iv' k') ^ power_of v) ->
  Forall (fun b => length b = 16%nat /\ exists q, two_seals key iv k key' iv' k' t (u ++ b ++ v) q) bs -> Z.of_nat (length bs) <= 8.
Proof. exact reflected_few. Qed.
Print Assumptions C115_reflected.
(** and of the records of a client that differ in one block, a client opens at most eight: the case that [C114_own_record] leaves *)
Theorem C115_own_few : forall mm s g ss mm' s' g' ss' k j t u v bs, reached mm s g (Complete ss) -> reached mm' s' g' (Complete ss') -> k + 1 < 2 ^ 64 ->
  (length u mod 16 = 0)%nat -> zlen u + 16 + zlen v <= 16384 -> NoDup bs ->
  ~ (P1305 | point_of (k_client (s_keys ss')) (rfc_nonce (iv_client (s_keys ss')) j) ^ power_of v - point_of (k_server (s_keys ss)) (rfc_nonce (iv_server (s_keys ss)) k) ^ power_of v) ->
  Forall (fun b => length b = 16%nat /\ exists m r rest, keyed m r (k_server (s_keys ss)) (iv_server (s_keys ss)) k /\
    stream (r_src r) = sealed_record (k_client (s_keys ss')) (iv_client (s_keys ss')) j t (u ++ b ++ v) ++ rest /\ fst (read_record m r) <> Err BadRecordMac) bs ->
  Z.of_nat (length bs) <= 8.
Proof. exact own_few. Qed.
Print Assumptions C115_own_few.
(** as property, refuted: a record opens under one key only. This one opens under two, to different data *)
Theorem C115_one_key_refuted : exists key key' iv k t p q, key <> key' /\ p <> q /\ length key = 32%nat /\ length key' = 32%nat /\ length iv = 12%nat /\
  sealed_record key iv k t p = sealed_record key' iv k t q /\ zlen p = zlen q /\
  forall m, let f := aead_seal key (rfc_nonce iv k) (rfc_ad k t x03 x03 (zlen p)) p in let ad := rfc_ad k t x03 x03 (zlen f - 16) in
    aead_decrypt m key (rfc_nonce iv k) f ad = Ok p /\ aead_decrypt m key' (rfc_nonce iv k) f ad = Ok q.
Proof. exact two_keys. Qed.
Print Assumptions C115_one_key_refuted.

(** ** Examples *)
(** the hypotheses of [C115_few] hold of those two keys and that ciphertext *)
Example ex_few : (length (@nil byte) mod 16 = 0)%nat /\ NoDup [text_ct] /\
  ~ (P1305 | point_of key_a (rfc_nonce plain_iv 1) ^ power_of [] - point_of key_b (rfc_nonce plain_iv 1) ^ power_of []) /\
  Forall (fun b => length b = 16%nat /\ exists tag, sealing key_a (rfc_nonce plain_iv 1) text_ad ([] ++ b ++ []) tag /\ sealing key_b (rfc_nonce plain_iv 1) text_ad ([] ++ b ++ []) tag) [text_ct].
Proof.
  split; [reflexivity|]. split; [constructor; [intros []|constructor]|]. split; [exact points_ab|].
  constructor; [|constructor]. split; [reflexivity|]. exists text_tag. exact sealings_ab.
Qed.

(** those of [C115_reflected] *)
Example ex_reflected : NoDup [text_a] /\ Forall (fun b => length b = 16%nat /\ exists q, two_seals key_a plain_iv 1 key_b plain_iv 1 ApplicationDataTy ([] ++ b ++ []) q) [text_a].
Proof.
  split; [constructor; [intros []|constructor]|]. constructor; [|constructor]. split; [reflexivity|]. exists text_b. split; [reflexivity|].
  exact (eq_trans seal_a (eq_sym seal_b)).
Qed.
