(** The unit tests of the repository, replayed on the model.  These are tests of the model (bounded, concrete), not
    proofs of properties: they check that the model computes what the authors recorded from the code. *)
From Verif Require Import M_Aead M_Prf M_P256 M_Client.

(** src/crypto/sha2.rs:110-136 [test_sha256] *)
Example t_sha256_1 : sha256 Debug [] = Ok [xe3; xb0; xc4; x42; x98; xfc; x1c; x14; x9a; xfb; xf4; xc8; x99; x6f; xb9; x24; x27; xae; x41; xe4; x64; x9b; x93; x4c; xa4; x95; x99; x1b; x78; x52; xb8; x55].
Proof. vm_compute. reflexivity. Qed.
Example t_sha256_2 : sha256 Debug [x61; x62; x63] = Ok [xba; x78; x16; xbf; x8f; x01; xcf; xea; x41; x41; x40; xde; x5d; xae; x22; x23; xb0; x03; x61; xa3; x96; x17; x7a; x9c; xb4; x10; xff; x61; xf2; x00; x15; xad].
Proof. vm_compute. reflexivity. Qed.
Example t_sha256_3 : sha256 Debug [x61; x62; x63; x64; x62; x63; x64; x65; x63; x64; x65; x66; x64; x65; x66; x67; x65; x66; x67; x68; x66; x67; x68; x69; x67; x68; x69; x6a; x68; x69; x6a; x6b; x69; x6a; x6b; x6c; x6a; x6b; x6c; x6d; x6b; x6c; x6d; x6e; x6c; x6d; x6e; x6f; x6d; x6e; x6f; x70; x6e; x6f; x70; x71] = Ok [x24; x8d; x6a; x61; xd2; x06; x38; xb8; xe5; xc0; x26; x93; x0c; x3e; x60; x39; xa3; x3c; xe4; x59; x64; xff; x21; x67; xf6; xec; xed; xd4; x19; xdb; x06; xc1].
Proof. vm_compute. reflexivity. Qed.

(** src/cipher/prf.rs:96-142 [test_hmac_sha256] (RFC 4231), the first and the last; [test_get_bytes] (lines 144-173) is C39 *)
Example t_hmac_1 : hmac_sha256 Debug [x0b; x0b; x0b; x0b; x0b; x0b; x0b; x0b; x0b; x0b; x0b; x0b; x0b; x0b; x0b; x0b; x0b; x0b; x0b; x0b] [x48; x69; x20; x54; x68; x65; x72; x65] =
  Ok [xb0; x34; x4c; x61; xd8; xdb; x38; x53; x5c; xa8; xaf; xce; xaf; x0b; xf1; x2b; x88; x1d; xc2; x00; xc9; x83; x3d; xa7; x26; xe9; x37; x6c; x2e; x32; xcf; xf7].
Proof. vm_compute. reflexivity. Qed.
Example t_hmac_4 : hmac_sha256 Debug [x01; x02; x03; x04; x05; x06; x07; x08; x09; x0a; x0b; x0c; x0d; x0e; x0f; x10; x11; x12; x13; x14; x15; x16; x17; x18; x19] [xcd; xcd; xcd; xcd; xcd; xcd; xcd; xcd; xcd; xcd; xcd; xcd; xcd; xcd; xcd; xcd; xcd; xcd; xcd; xcd; xcd; xcd; xcd; xcd; xcd; xcd; xcd; xcd; xcd; xcd; xcd; xcd; xcd; xcd; xcd; xcd; xcd; xcd; xcd; xcd; xcd; xcd; xcd; xcd; xcd; xcd; xcd; xcd; xcd; xcd] =
  Ok [x82; x55; x8a; x38; x9a; x44; x3c; x0e; xa4; xcc; x81; x98; x99; xf2; x08; x3a; x85; xf0; xfa; xa3; xe5; x78; xf8; x07; x7a; x2e; x3f; xf4; x67; x29; x66; x5b].
Proof. vm_compute. reflexivity. Qed.

(** src/cipher/prf.rs:174-195 [test_prf_vector] *)
Example t_prf : (let* p := prf_new Debug [x9b; xbe; x43; x6b; xa9; x40; xf0; x17; xb1; x76; x52; x84; x9a; x71; xdb; x35]
    [x74; x65; x74; x65; x73; x74; x20; x6c; x61; x62; x65; x6c; xa0; xba; x9f; x93; x6c; xda; x31; x18; x27; xa6; xf7; x96; xff; xd5; x19; x8c] in
  let* (b, _) := get_bytes Debug 100 p in Ok b) = Ok [x7c; x74; xe9; x13; x6a; x4b; x6b; x45; x24; x91; x74; x5c; x1a; xec; x66; xa3; x90; xda; x23; x04; xae; xed; x91; x47; x2b; xac; x54; x9c; x90; x83; x23; x17; xe2; x57; xbe; xb8; x5d; x3b; x55; x76; x35; x6c; x5f; x1d; x68; xed; xae; x05; xe4; x55; x28; xfe; xdd; x61; x72; x34; x19; x47; x2d; x08; xab; x42; xa4; xd5; x73; x96; x16; x05; x57; xdf; x2a; x43; xf8; xaa; xf6; x4c; x01; xf2; xe6; x00; x0e; x8e; xb0; x22; xb7; x9b; x33; x94; xcd; x8b; x41; xb3; xb3; x7b; x29; x02; x26; xb8; x02; x62].
Proof. vm_compute. reflexivity. Qed.

(** src/crypto/chacha20.rs:112-156 [test_chacha20] *)
Definition keystream (key nonce : bytes) (n : nat) : res bytes :=
  let* c := chacha_new key nonce in let* (b, _) := chacha_encrypt Debug c (zeros n) in Ok b.
Example t_chacha_1 : keystream [x00; x00; x00; x00; x00; x00; x00; x00; x00; x00; x00; x00; x00; x00; x00; x00; x00; x00; x00; x00; x00; x00; x00; x00; x00; x00; x00; x00; x00; x00; x00; x00] [x00; x00; x00; x00; x00; x00; x00; x00; x00; x00; x00; x00] 64 = Ok [x76; xb8; xe0; xad; xa0; xf1; x3d; x90; x40; x5d; x6a; xe5; x53; x86; xbd; x28; xbd; xd2; x19; xb8; xa0; x8d; xed; x1a; xa8; x36; xef; xcc; x8b; x77; x0d; xc7; xda; x41; x59; x7c; x51; x57; x48; x8d; x77; x24; xe0; x3f; xb8; xd8; x4a; x37; x6a; x43; xb8; xf4; x15; x18; xa1; x1c; xc3; x87; xb6; x69; xb2; xee; x65; x86].
Proof. vm_compute. reflexivity. Qed.
Example t_chacha_2 : keystream [x00; x00; x00; x00; x00; x00; x00; x00; x00; x00; x00; x00; x00; x00; x00; x00; x00; x00; x00; x00; x00; x00; x00; x00; x00; x00; x00; x00; x00; x00; x00; x01] [x00; x00; x00; x00; x00; x00; x00; x00; x00; x00; x00; x00] 64 = Ok [x45; x40; xf0; x5a; x9f; x1f; xb2; x96; xd7; x73; x6e; x7b; x20; x8e; x3c; x96; xeb; x4f; xe1; x83; x46; x88; xd2; x60; x4f; x45; x09; x52; xed; x43; x2d; x41; xbb; xe2; xa0; xb6; xea; x75; x66; xd2; xa5; xd1; xe7; xe2; x0d; x42; xaf; x2c; x53; xd7; x92; xb1; xc4; x3f; xea; x81; x7e; x9a; xd2; x75; xae; x54; x69; x63].
Proof. vm_compute. reflexivity. Qed.
Example t_chacha_3 : keystream [x00; x00; x00; x00; x00; x00; x00; x00; x00; x00; x00; x00; x00; x00; x00; x00; x00; x00; x00; x00; x00; x00; x00; x00; x00; x00; x00; x00; x00; x00; x00; x00] [x00; x00; x00; x00; x00; x00; x00; x00; x00; x00; x00; x01] 64 = Ok [xde; x9c; xba; x7b; xf3; xd6; x9e; xf5; xe7; x86; xdc; x63; x97; x3f; x65; x3a; x0b; x49; xe0; x15; xad; xbf; xf7; x13; x4f; xcb; x7d; xf1; x37; x82; x10; x31; xe8; x5a; x05; x02; x78; xa7; x08; x45; x27; x21; x4f; x73; xef; xc7; xfa; x5b; x52; x77; x06; x2e; xb7; xa0; x43; x3e; x44; x5f; x41; xe3; x1a; xfa; xb7; x57].
Proof. vm_compute. reflexivity. Qed.
Example t_chacha_4 : keystream [x00; x00; x00; x00; x00; x00; x00; x00; x00; x00; x00; x00; x00; x00; x00; x00; x00; x00; x00; x00; x00; x00; x00; x00; x00; x00; x00; x00; x00; x00; x00; x00] [x01; x00; x00; x00; x00; x00; x00; x00; x00; x00; x00; x00] 64 = Ok [x3d; xb4; x1d; x3a; xa0; xd3; x29; x28; x5d; xe6; xf2; x25; xe6; xe2; x4b; xd5; x9c; x9a; x17; x00; x69; x43; xd5; xc9; xb6; x80; xe3; x87; x3b; xdc; x68; x3a; x58; x19; x46; x98; x99; x98; x96; x90; xc2; x81; xcd; x17; xc9; x61; x59; xaf; x06; x82; xb5; xb9; x03; x46; x8a; x61; xf5; x02; x28; xcf; x09; x62; x2b; x5a].
Proof. vm_compute. reflexivity. Qed.
Example t_chacha_5 : keystream [x00; x01; x02; x03; x04; x05; x06; x07; x08; x09; x0a; x0b; x0c; x0d; x0e; x0f; x10; x11; x12; x13; x14; x15; x16; x17; x18; x19; x1a; x1b; x1c; x1d; x1e; x1f] [x00; x01; x02; x03; x04; x05; x06; x07; x08; x09; x0a; x0b] 128 = Ok [x10; x3a; xf1; x11; xc1; x8b; x54; x9d; x39; x24; x8f; xb0; x7d; x60; xc2; x9a; x95; xd1; xdb; x88; xd8; x92; xf7; xb4; xaf; x70; x9a; x5f; xd4; x7a; x9e; x4b; xd5; xff; x9a; x65; x8d; xd5; x2c; x70; x8b; xef; x1f; x0f; x62; x2b; x37; x47; x04; x0f; xa3; x55; x13; x00; xb1; xf2; x93; x15; x0a; x88; x62; x0d; x5f; xed; x89; xfb; x08; x00; x29; x17; xa5; x40; xb7; x83; x3f; xf3; x98; x1d; x0e; x63; xc9; x70; xb2; xe7; x51; x74; xad; xb9; xe6; x97; x2f; xc5; x75; xc0; xa6; x3c; xec; x80; x2c; xf3; xe6; x1e; xb1; x98; x37; x32; x76; xd8; x65; x94; x8f; x23; x7e; x84; xa9; x74; xfd; x28; xb8; x9b; x12; xb8; xd9; x07; x90; x4f; x9e; xd6].
Proof. vm_compute. reflexivity. Qed.

(** src/crypto/poly1305.rs:226-310 [test_poly1305_examples] *)
Example t_poly_1 : authenticate Debug [xf3; xf6] [x85; x1f; xc4; x0c; x34; x67; xac; x0b; xe0; x5c; xc2; x04; x04; xf3; xf7; x00]
  [x58; x0b; x3b; x0f; x94; x47; xbb; x1e; x69; xd0; x95; xb5; x92; x8b; x6d; xbc] = Ok [xf4; xc6; x33; xc3; x04; x4f; xc1; x45; xf8; x4f; x33; x5c; xb8; x19; x53; xde].
Proof. vm_compute. reflexivity. Qed.
Example t_poly_2 : authenticate Debug [] [xa0; xf3; x08; x00; x00; xf4; x64; x00; xd0; xc7; xe9; x07; x6c; x83; x44; x03]
  [xdd; x3f; xab; x22; x51; xf1; x1a; xc7; x59; xf0; x88; x71; x29; xcc; x2e; xe7] = Ok [xdd; x3f; xab; x22; x51; xf1; x1a; xc7; x59; xf0; x88; x71; x29; xcc; x2e; xe7].
Proof. vm_compute. reflexivity. Qed.
Example t_poly_3 : authenticate Debug [x66; x3c; xea; x19; x0f; xfb; x83; xd8; x95; x93; xf3; xf4; x76; xb6; xbc; x24; xd7; xe6; x79; x10; x7e; xa2; x6a; xdb; x8c; xaf; x66; x52; xd0; x65; x61; x36] [x48; x44; x3d; x0b; xb0; xd2; x11; x09; xc8; x9a; x10; x0b; x5c; xe2; xc2; x08]
  [x83; x14; x9c; x69; xb5; x61; xdd; x88; x29; x8a; x17; x98; xb1; x07; x16; xef] = Ok [x0e; xe1; xc1; x6b; xb7; x3f; x0f; x4f; xd1; x98; x81; x75; x3c; x01; xcd; xbe].
Proof. vm_compute. reflexivity. Qed.
Example t_poly_4 : authenticate Debug [xab; x08; x12; x72; x4a; x7f; x1e; x34; x27; x42; xcb; xed; x37; x4d; x94; xd1; x36; xc6; xb8; x79; x5d; x45; xb3; x81; x98; x30; xf2; xc0; x44; x91; xfa; xf0; x99; x0c; x62; xe4; x8b; x80; x18; xb2; xc3; xe4; xa0; xfa; x31; x34; xcb; x67; xfa; x83; xe1; x58; xc9; x94; xd9; x61; xc4; xcb; x21; x09; x5c; x1b; xf9] [x12; x97; x6a; x08; xc4; x42; x6d; x0c; xe8; xa8; x24; x07; xc4; xf4; x82; x07]
  [x80; xf8; xc2; x0a; xa7; x12; x02; xd1; xe2; x91; x79; xcb; xcb; x55; x5a; x57] = Ok [x51; x54; xad; x0d; x2c; xb2; x6e; x01; x27; x4f; xc5; x11; x48; x49; x1f; x1b].
Proof. vm_compute. reflexivity. Qed.

(** src/cipher/chacha20_poly1305.rs:135-164 [test_chacha20_poly1305] *)
Example t_aead : let key := [x4e; x7c; x86; xc2; xb2; x9f; xba; x79; x27; x96; x7d; x34; x29; x2b; x85; xbc; x10; x71; x53; xff; x2f; x62; xe7; xc2; x8e; x6c; x31; xc1; x3b; xac; xdd; xd2] in
  let nonce := [x3f; x8f; x9e; xc1; x0c; x4a; x20; xc8; xf6; x74; xf3; x03] in let aad := [x00; x00; x00; x00; x00; x00; x00; x00; x16; x03; x03; x00; x10] in
  let plain := [x14; x00; x00; x0c; x52; xb0; x30; x42; x66; x95; x8e; x84; xe6; xcc; x99; xce] in
  let sealed := [x75; x63; x11; x90; x09; x40; x7c; x5a; xd5; xd6; x2c; x3b; x36; x98; x21; xa5; x9a; xd5; x72; x56; xe1; x73; xb2; x3a; x80; x80; xe9; xf1; x94; x79; xf8; x19] in
  new_encryptor Debug key nonce plain aad = Ok sealed /\ dc_decrypt (new_decryptor Debug key) nonce sealed aad = Ok plain.
Proof. vm_compute. split; reflexivity. Qed.

(** src/crypto/wrapping.rs:55-66 [test_to_wrapping] ([to_w16] is not used by the crate; see C94) *)
Example t_wrapping : to_w32 0x1234567887654321 = 0x87654321 /\ to_w8 0x1234567887654321 = x21.
Proof. split; reflexivity. Qed.

(** src/crypto/p256.rs:621-821: the eight values.  Additions, subtractions and multiplications for some pairs only and no inverses
    (their laws are theorems for all values: C42, C43) *)
Definition VALUES_256 : list int256 :=
  [ZERO; ONE; [2; 0; 0; 0; 0; 0; 0; 0]; repeat 1 8; [0; 2; 0; 2; 0; 0; 0; 0]; [1; 2; 3; 4; 5; 6; 7; 8];
   [0; 0; 0; 0; 0xffffffff; 0xffffffff; 0; 0xffffffff]; repeat 0xfffffffe 8].
Definition ieqb (a b : int256) : bool := if list_eq_dec Z.eq_dec a b then true else false.
Definition reqb (a b : res int256) : bool := match a, b with Ok a, Ok b => ieqb a b | _, _ => false end.
Definition pairs := list_prod VALUES_256 VALUES_256.
Example t_int256_compare : forallb (fun '(a, b) => icompare a b =? (if ieqb a b then 0 else 1)) pairs = true.
Proof. vm_compute. reflexivity. Qed.
Example t_int256_reduce_once : reduce_once Debug ZERO 0 = Ok ZERO /\ reduce_once Debug P256 0 = Ok ZERO /\
  reduce_once Debug [0; 0; 0; 1; 0; 0; 1; 0xffffffff] 0 = Ok ONE /\
  reduce_once Debug ZERO 1 = Ok [1; 0; 0; 0xffffffff; 0xffffffff; 0xffffffff; 0xfffffffe; 0].
Proof. vm_compute. repeat split. Qed.
Definition some_pairs : list (int256 * int256) :=
  [([1; 2; 3; 4; 5; 6; 7; 8], [0; 0; 0; 0; 0xffffffff; 0xffffffff; 0; 0xffffffff]); (repeat 0xfffffffe 8, repeat 0xfffffffe 8)].
Example t_int256_add : forallb (fun '(a, b) => reqb (iadd Debug a ZERO) (Ok a) && reqb (iadd Debug a b) (iadd Debug b a)) some_pairs = true.
Proof. vm_compute. reflexivity. Qed.
Example t_int256_sub : forallb (fun '(a, b) => reqb (isub Debug a ZERO) (Ok a) && reqb (isub Debug a a) (Ok ZERO) &&
  reqb (let* d := isub Debug a b in iadd Debug d b) (Ok a)) some_pairs = true.
Proof. vm_compute. reflexivity. Qed.
Example t_int256_mult : forallb (fun '(a, b) => reqb (imult Debug a ONE) (Ok a) && reqb (imult Debug a ZERO) (Ok ZERO) &&
  reqb (imult Debug a b) (imult Debug b a)) some_pairs = true.
Proof. vm_compute. reflexivity. Qed.
Example t_int256_divide_by_2 : forallb (fun a => let h := divide_by_2 a in
  reqb (reduce_once Debug h 0) (Ok h) && reqb (iadd Debug h h) (Ok a)) VALUES_256 = true.
Proof. vm_compute. reflexivity. Qed.
Example t_from_bytes : forallb (fun a => match from_bytes (to_bytes a) with Some b => ieqb a b | None => false end) VALUES_256 = true.
Proof. vm_compute. reflexivity. Qed.

(** src/handshake.rs:433-498 [test_parse_client_hello] *)
Definition hello_0 : handshake := client_hello_msg
  (ClientHello (Version x03 x03) (zeros 32) [] [TLS_ECDHE_RSA_WITH_CHACHA20_POLY1305_SHA256] [CM_null] None).
Definition packet_0 : bytes := [x01; x00; x00; x29; x03; x03] ++ zeros 32 ++ [x00; x00; x02; xcc; xa8; x01; x00].
Example t_write_client_hello : tls_write i_handshake hello_0 = Ok packet_0.
Proof. vm_compute. reflexivity. Qed.
Example t_parse_client_hello : match tls_read i_handshake packet_0 with Ok (h, []) => tls_write i_handshake h | _ => Panic end = Ok packet_0.
Proof. vm_compute. reflexivity. Qed.

(** src/tls.rs:433-530; [test_reader_too_long] is C19 *)
Definition first {A} (x : M reader A) (bs : bytes) : res A := fst (x (reader_new [RData bs])).
Example t_reader : let bs := [x14; x03; x03; x00; x01; x01] in
  first (read_record Debug) bs = Ok (Rec ChangeCipherSpecTy x03 x03 [x01]) /\
  first (do* _ := read_record Debug in read_record Debug) bs = Err IoFailure.
Proof. split; reflexivity. Qed.
Example t_reader_unknown : first (read_record Debug) [x18; x03; x03; x00; x03; x01; x00; x20] = Err UnexpectedMessage.
Proof. reflexivity. Qed.
Example t_reader_zero_length : forallb (fun t => match first (read_message Debug) [t; x03; x03; x00; x00] with
  Err UnexpectedMessage => true | _ => false end) [x14; x15; x16] = true.
Proof. reflexivity. Qed.
Example t_writer_too_long : let overlong : encryptor := fun _ _ _ => Ok (zeros (Z.to_nat (ENC_RECORD_MAX_LEN + 1))) in
  fst ((do* _ := w_set_encryptor overlong in write_record Debug (Rec ApplicationDataTy x03 x03 [x01])) (writer_new [])) = Panic.
Proof. vm_compute. reflexivity. Qed.

(** src/test.rs:13-66: the null cipher and [test_change_cipher_spec_message] *)
Definition null_encryptor : encryptor := fun _ plain _ => Ok plain.
(** src/test.rs:22-29 *)
Definition null_decryptor : decryptor := Decryptor (fun _ encrypted _ => Ok encrypted) 0.
Example t_null_ccs : let w := snd ((do* _ := w_set_encryptor null_encryptor in write_change_cipher_spec Debug) (writer_new [])) in
  w_out w = [x14; x03; x03; x00; x01; x01] /\
  first (do* _ := r_set_decryptor null_decryptor in read_message Debug) (w_out w) = Ok ChangeCipherSpecMessage.
Proof. vm_compute. split; reflexivity. Qed.
