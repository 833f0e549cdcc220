(** Model of src/cipher/chacha20_poly1305.rs. *)
From Verif Require Export M_Chacha20 M_Poly1305 M_Util M_Record.

(** src/cipher/chacha20_poly1305.rs:17-19 *)
Definition KEY_LEN : Z := 32.
(** src/cipher/chacha20_poly1305.rs:18 *)
Definition EXPLICIT_IV_LEN : Z := 0.
(** src/cipher/chacha20_poly1305.rs:19 *)
Definition MAC_LEN : nat := 16.

(** src/cipher/chacha20_poly1305.rs:26-29, 31-34 *)
Definition pad16 (bs : bytes) : bytes :=
  let padding_len := (16 - length bs mod 16)%nat in
  if Nat.eqb padding_len 16 then [] else zeros padding_len.

(** src/cipher/chacha20_poly1305.rs:22-36: the MAC input.  [u64_le_array] is [le 8] on both hosts ([P_Util.v]) *)
Definition mac_input (encrypted ad : bytes) : bytes :=
  ad ++ pad16 ad ++ encrypted ++ pad16 encrypted ++ le 8 (zlen ad) ++ le 8 (zlen encrypted).

(** src/cipher/chacha20_poly1305.rs:21-44 [compute_mac] *)
Definition compute_mac (m : mode) (poly_key encrypted ad : bytes) : res bytes :=
  authenticate m (mac_input encrypted ad) (slice poly_key 0 16) (slice poly_key 16 32).

(** src/cipher/chacha20_poly1305.rs:51-60 [encrypt] *)
Definition aead_encrypt (m : mode) (key : bytes) : encryptor := fun nonce data ad =>
  let* chacha20 := chacha_new key nonce in
  let* (poly_key, chacha20) := chacha_next m chacha20 in
  let* (encrypted, _) := chacha_encrypt m chacha20 data in
  let* mac := compute_mac m poly_key encrypted ad in
  Ok (encrypted ++ mac).

(** src/cipher/chacha20_poly1305.rs:86-89: the comparison loop; both slices have 16 bytes *)
Definition mac_diff (a b : bytes) : Z :=
  fold_left (fun diff i => Z.lor diff (b2z (bxor (nth i a x00) (nth i b x00)))) (seq 0 MAC_LEN) 0.

(** src/cipher/chacha20_poly1305.rs:68-96 [decrypt] *)
Definition aead_decrypt (m : mode) (key : bytes) (nonce data ad : bytes) : res bytes :=
  let enc_len := length data in
  if (enc_len <? MAC_LEN)%nat then Err BadRecordMac
  else
    let encrypted := firstn (enc_len - MAC_LEN) data in
    let mac_expected := skipn (enc_len - MAC_LEN) data in
    let* chacha20 := chacha_new key nonce in
    let* (poly_key, chacha20) := chacha_next m chacha20 in
    let* mac_computed := compute_mac m poly_key encrypted ad in
    let* (plain, _) := chacha_encrypt m chacha20 encrypted in
    if mac_diff mac_computed mac_expected =? 0 then Ok plain else Err BadRecordMac.

(** src/cipher/chacha20_poly1305.rs:98-101, 123-132 [new_encryptor], [new_decryptor], [mac_len] *)
Definition new_encryptor (m : mode) (key : bytes) : encryptor := aead_encrypt m key.
(** src/cipher/chacha20_poly1305.rs:98-101, 129-132 *)
Definition new_decryptor (m : mode) (key : bytes) : decryptor := Decryptor (aead_decrypt m key) 16.
