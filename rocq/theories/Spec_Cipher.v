(** Specification vocabulary for C92: the cipher on data of any size. *)
From Verif Require Export Spec_Crypto M_Cipher.

(** the key stream with the block count modulo 2^32: what is left of RFC 7539 2.4 when the count is not kept below 2^32 *)
Definition wrapping_stream (key nonce : bytes) (count : Z) (i : nat) : byte :=
  nth (i mod 64) (chacha20_block key ((count + Z.of_nat (i / 64)) mod 2 ^ 32) nonce) x00.
Definition wrapping_encrypt (key : bytes) (count : Z) (nonce data : bytes) : bytes :=
  map (fun i => bxor (nth i data x00) (wrapping_stream key nonce count i)) (seq 0 (length data)).
(** RFC 7539 2.8 with that key stream *)
Definition wrapping_tag (key nonce ad ct : bytes) : bytes :=
  poly1305_mac (aead_mac_data ad ct) (firstn 16 (poly_key_gen key nonce)) (skipn 16 (poly_key_gen key nonce)).
Definition wrapping_seal (key nonce ad plain : bytes) : bytes :=
  let ct := wrapping_encrypt key 1 nonce plain in ct ++ wrapping_tag key nonce ad ct.
(** RFC 7539 2.8: the most data that may be sealed at once, 2^38 - 64 bytes *)
Definition rfc_p_max : Z := 2 ^ 38 - 64.
(** how much each build takes at once *)
Definition takes (m : mode) (data : bytes) : Prop := match m with Debug => zlen data <= rfc_p_max - 64 | Release => True end.
(** RFC 7905 2 (and 7539 2.8): K_LEN, the lengths of the fixed and of the explicit part of the nonce, of the tag; RFC 5246 7.4.9 *)
Definition rfc_key_length : Z := 32.
Definition rfc_fixed_iv_length : Z := 12.
Definition rfc_record_iv_length : Z := 0.
Definition rfc_tag_length : Z := 16.
Definition rfc_verify_data_length : nat := 12.
