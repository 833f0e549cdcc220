(** Specification vocabulary for C115: ciphertexts that open under two keys. *)
From Verif Require Export Spec_Record Spec_Crypto.
Local Open Scope list_scope.
Local Open Scope Z_scope.

(** the number at which Poly1305 evaluates its polynomial, for a key and a nonce: the first half of the one-time key, clamped *)
Definition point_of (key nonce : bytes) : Z := clamp (le_val (firstn 16 (poly_key_gen key nonce))).
(** a block of the ciphertext with [v] after it is multiplied by that power of it: the block, those of [v] and that of the lengths *)
Definition power_of (v : bytes) : Z := 1 + Z.of_nat (nblocks v) + 1.
(** the ciphertext and the tag in front of which the sender had some data *)
Definition sealing (key nonce aad ct tag : bytes) : Prop := length tag = 16%nat /\ exists p, aead_seal key nonce aad p = ct ++ tag.
