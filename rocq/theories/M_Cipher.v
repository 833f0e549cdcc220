(** Model of the rest of src/cipher/mod.rs: the [Aead] interface and the functions of a cipher suite. *)
From Verif Require Export M_Aead M_Ecdhe M_Client.

(** src/cipher/mod.rs:14-20 [Aead]: the methods of the trait object *)
Record aead := Aead {
  a_key_size : Z;
  a_fixed_iv_len : Z;
  a_mac_len : Z;
  a_new_encryptor : bytes -> encryptor;
  a_new_decryptor : bytes -> decryptor }.
(** src/cipher/chacha20_poly1305.rs:106-133 *)
Definition ChaCha20Poly1305 (m : mode) : aead :=
  Aead KEY_LEN EXPLICIT_IV_LEN (Z.of_nat MAC_LEN) (new_encryptor m) (new_decryptor m).

(** src/cipher/mod.rs:52-59 [new_aead]; [unreachable!] panics *)
Definition suite_aead (m : mode) (c : cipher_suite) : res aead :=
  match c with TLS_ECDHE_RSA_WITH_CHACHA20_POLY1305_SHA256 => Ok (ChaCha20Poly1305 m) | UnknownCipherSuite => Panic end.
(** src/cipher/mod.rs:61-68 [new_kex]: a [KeyExchange] is its only method *)
Definition suite_kex (m : mode) (c : cipher_suite) : res (bytes -> M rng (bytes * bytes)) :=
  match c with TLS_ECDHE_RSA_WITH_CHACHA20_POLY1305_SHA256 => Ok (compute_keys m) | UnknownCipherSuite => Panic end.
(** src/cipher/mod.rs:71 [verify_data_len] *)
Definition suite_verify_data_len (c : cipher_suite) : nat := verify_data_len.
