(** C92: the cipher interface on its own, for every key, nonce and amount of data. *)
From Verif Require Import Spec_Cipher P_Util P_Codec P_Chacha P_Aead P_Cipher.
From Coq Require Import ZifyBool ZifyNat ZifyN.
Local Open Scope list_scope.
Local Open Scope Z_scope.

(** encryption, on all inputs *)
Theorem C92_encrypts : forall m key nonce data ad, length key = 32%nat -> length nonce = 12%nat -> takes m data ->
  a_new_encryptor (ChaCha20Poly1305 m) key nonce data ad = Ok (wrapping_seal key nonce ad data).
Proof. exact encrypts. Qed.
Print Assumptions C92_encrypts.
Theorem C92_encrypt_panics : forall m key nonce data ad, length key <> 32%nat \/ length nonce <> 12%nat \/ ~ takes m data ->
  a_new_encryptor (ChaCha20Poly1305 m) key nonce data ad = Panic.
Proof. exact encrypt_panics. Qed.
Print Assumptions C92_encrypt_panics.
(** decryption, on all inputs *)
Theorem C92_decrypt_short : forall m key nonce data ad, zlen data < 16 -> dc_decrypt (a_new_decryptor (ChaCha20Poly1305 m) key) nonce data ad = Err BadRecordMac.
Proof. exact decrypt_short. Qed.
Print Assumptions C92_decrypt_short.
Theorem C92_decrypts : forall m key nonce ct tag ad, length key = 32%nat -> length nonce = 12%nat -> length tag = 16%nat -> takes m ct ->
  (tag = wrapping_tag key nonce ad ct -> dc_decrypt (a_new_decryptor (ChaCha20Poly1305 m) key) nonce (ct ++ tag) ad = Ok (wrapping_encrypt key 1 nonce ct)) /\
  (tag <> wrapping_tag key nonce ad ct -> dc_decrypt (a_new_decryptor (ChaCha20Poly1305 m) key) nonce (ct ++ tag) ad = Err BadRecordMac).
Proof. exact decrypts. Qed.
Print Assumptions C92_decrypts.
Theorem C92_decrypt_panics : forall m key nonce ct tag ad, length tag = 16%nat -> length key <> 32%nat \/ length nonce <> 12%nat \/ ~ takes m ct ->
  dc_decrypt (a_new_decryptor (ChaCha20Poly1305 m) key) nonce (ct ++ tag) ad = Panic.
Proof. exact decrypt_panics. Qed.
Print Assumptions C92_decrypt_panics.
(** what is sealed can be opened, whatever its size *)
Theorem C92_opens_own : forall m key nonce data ad c, a_new_encryptor (ChaCha20Poly1305 m) key nonce data ad = Ok c ->
  dc_decrypt (a_new_decryptor (ChaCha20Poly1305 m) key) nonce c ad = Ok data /\ zlen c = zlen data + a_mac_len (ChaCha20Poly1305 m).
Proof. exact opens_own. Qed.
Print Assumptions C92_opens_own.

(** up to the limit of RFC 7539 it is the cipher of RFC 7539 *)
Theorem C92_within_limit : forall key nonce ad data, zlen data <= rfc_p_max -> wrapping_seal key nonce ad data = aead_seal key nonce ad data.
Proof. exact within_limit. Qed.
Print Assumptions C92_within_limit.
(** but a debug build stops one block early, *)
Theorem C92_debug_limit_refuted : exists key nonce data ad, length key = 32%nat /\ length nonce = 12%nat /\ zlen data <= rfc_p_max /\
  a_new_encryptor (ChaCha20Poly1305 Debug) key nonce data ad <> Ok (aead_seal key nonce ad data).
Proof. exact debug_limit. Qed.
Print Assumptions C92_debug_limit_refuted.
(** and a release build does not stop at it, *)
Theorem C92_release_limit_refuted : exists key nonce data ad c, length key = 32%nat /\ length nonce = 12%nat /\ rfc_p_max + 32 <= zlen data /\
  a_new_encryptor (ChaCha20Poly1305 Release) key nonce data ad = Ok c.
Proof. exact release_limit. Qed.
Print Assumptions C92_release_limit_refuted.
(** whatever is encrypted: the bytes after the limit are encrypted with the authentication key of the message *)
Theorem C92_release_exposes_key : forall key nonce data ad i c, length key = 32%nat -> length nonce = 12%nat -> (i < 32)%nat -> rfc_p_max + Z.of_nat i < zlen data ->
  a_new_encryptor (ChaCha20Poly1305 Release) key nonce data ad = Ok c ->
  let at_end := (Z.to_nat rfc_p_max + i)%nat in nth i (poly_key_gen key nonce) x00 = bxor (nth at_end c x00) (nth at_end data x00).
Proof. exact key_exposed. Qed.
Print Assumptions C92_release_exposes_key.

(** the key stream comes again after 2^38 bytes, not after the 2^70 of the comment at src/crypto/chacha20.rs:94 *)
Theorem C92_stream_repeats : forall key nonce data n v c v' i, chacha_at key nonce n v -> chacha_encrypt Release v data = Ok (c, v') -> (i + Z.to_nat (2 ^ 38) < length data)%nat ->
  bxor (nth i c x00) (nth (i + Z.to_nat (2 ^ 38)) c x00) = bxor (nth i data x00) (nth (i + Z.to_nat (2 ^ 38)) data x00).
Proof. exact stream_repeats. Qed.
Print Assumptions C92_stream_repeats.

(** the suite read from two bytes can be used exactly if they are CC A8; for all others [new_aead] and [new_kex] panic *)
Theorem C92_suite_read : forall m a b rest c, tls_read i_cipher_suite (a :: b :: rest) = Ok (c, rest) ->
  ((exists d, suite_aead m c = Ok d) <-> a = xcc /\ b = xa8) /\ ((exists k, suite_kex m c = Ok k) <-> a = xcc /\ b = xa8).
Proof. exact suite_read. Qed.
Print Assumptions C92_suite_read.
Theorem C92_suites : forall m c, match c with
  | UnknownCipherSuite => suite_aead m c = Panic /\ suite_kex m c = Panic
  | _ => suite_aead m c = Ok (ChaCha20Poly1305 m) /\ suite_kex m c = Ok (compute_keys m) end.
Proof. exact suites. Qed.
Print Assumptions C92_suites.
(** its lengths *)
Theorem C92_parameters : forall m c d, suite_aead m c = Ok d -> a_key_size d = rfc_key_length /\ a_mac_len d = rfc_tag_length /\
  (forall key, dc_mac_len (a_new_decryptor d key) = a_mac_len d) /\ suite_verify_data_len c = rfc_verify_data_length /\ a_fixed_iv_len d = rfc_record_iv_length.
Proof. exact suite_parameters. Qed.
Print Assumptions C92_parameters.
(** [fixed_iv_len] is not the fixed_iv_length of RFC 7905 *)
Theorem C92_fixed_iv_refuted : exists m c d, suite_aead m c = Ok d /\ a_fixed_iv_len d <> rfc_fixed_iv_length.
Proof. exact fixed_iv_differs. Qed.
Print Assumptions C92_fixed_iv_refuted.

(** the amounts *)
Example ex_takes : takes Debug (zeros 100) /\ ~ takes Debug (repeat x00 (Z.to_nat rfc_p_max)) /\
  a_new_encryptor (ChaCha20Poly1305 Release) (zeros 31) (zeros 12) [x61] [] = Panic.
Proof.
  split; [discriminate|]. split; [|apply encrypt_panics; left; discriminate].
  cbn [takes]. unfold zlen. rewrite repeat_length, Z2Nat.id by discriminate. intros H. unfold rfc_p_max in H. lia.
Qed.
Example ex_unknown : tls_read i_cipher_suite [xc0; x2f] = Ok (UnknownCipherSuite, []) /\ suite_aead Release UnknownCipherSuite = Panic.
Proof. split; reflexivity. Qed.
