(** Properties C11 (AEAD tag comparison), C36-C41, and the record-layer findings with the real cipher:
    src/crypto/chacha20.rs, poly1305.rs, sha2.rs, src/cipher/prf.rs, chacha20_poly1305.rs. *)
From Verif Require Import Spec_Crypto P_Chacha P_Poly2 P_Sha2 P_Prf P_Aead P_AeadX.

(** ** C11, the AEAD's comparison *)
Theorem C11_tag_comparison : forall a b, length a = 16%nat -> length b = 16%nat -> mac_diff a b = 0 <-> a = b.
Proof. exact mac_diff_decides. Qed.
Print Assumptions C11_tag_comparison.

Example ex_tag : mac_diff (zeros 15 ++ [x80]) (zeros 16) <> 0 /\ mac_diff (zeros 16) (zeros 16) = 0.
Proof. split; [discriminate|reflexivity]. Qed.

(** ** C36: [chacha_at key nonce n v]: the words [v] are the RFC 7539 initial state with block count [n] *)
Theorem C36_initial_state : forall key nonce, length key = 32%nat -> length nonce = 12%nat ->
  exists v, chacha_new key nonce = Ok v /\ chacha_at key nonce 0 v.
Proof. exact chacha_new_spec. Qed.
Print Assumptions C36_initial_state.

Theorem C36_next_block : forall m key nonce n v, chacha_at key nonce n v -> n + 1 < 2 ^ 32 ->
  exists v', chacha_next m v = Ok (chacha20_block key n nonce, v') /\ chacha_at key nonce (n + 1) v'.
Proof. exact chacha_next_ok. Qed.
Print Assumptions C36_next_block.

Theorem C36_encrypt : forall m key nonce n v data,
  chacha_at key nonce n v -> n + blocks64 (length data) < 2 ^ 32 ->
  exists v', chacha_encrypt m v data = Ok (chacha20_encrypt key n nonce data, v') /\
             chacha_at key nonce (n + blocks64 (length data)) v'.
Proof. exact chacha_encrypt_ok. Qed.
Print Assumptions C36_encrypt.

Theorem C36_length : forall key n nonce data, length (chacha20_encrypt key n nonce data) = length data.
Proof. exact chacha20_encrypt_length. Qed.
Print Assumptions C36_length.

Theorem C36_own_inverse : forall key n nonce data,
  chacha20_encrypt key n nonce (chacha20_encrypt key n nonce data) = data.
Proof. exact chacha20_encrypt_involutive. Qed.
Print Assumptions C36_own_inverse.

(** the exact limit: a debug build panics as soon as the counter would reach 2^32 *)
Theorem C36_counter_limit : forall key nonce n v data,
  chacha_at key nonce n v -> 2 ^ 32 <= n + blocks64 (length data) -> chacha_encrypt Debug v data = Panic.
Proof. exact chacha_encrypt_overflow. Qed.
Print Assumptions C36_counter_limit.

Theorem C36_records_fit : forall p : bytes, zlen p <= 2 ^ 24 -> 1 + blocks64 (length p) < 2 ^ 32.
Proof. exact fits_record. Qed.
Print Assumptions C36_records_fit.

(** RFC 7539 section 2.1.1 *)
Example ex_quarter : QUARTERROUND (0x11111111, 0x01020304, 0x9b8d6f43, 0x01234567) = (0xea2a92f4, 0xcb1cf8ce, 0x4581472e, 0x5881c4bb).
Proof. vm_compute. reflexivity. Qed.
Example ex_chacha : chacha_at (zeros 32) (zeros 12) 1 (upd 12 1 ([0x61707865; 0x3320646e; 0x79622d32; 0x6b206574] ++ repeat 0 12)).
Proof. split; [vm_compute; reflexivity|lia]. Qed.

(** ** C37 *)
Theorem C37_poly1305 : forall m msg r s, length r = 16%nat -> length s = 16%nat ->
  authenticate m msg r s = Ok (poly1305_mac msg r s).
Proof. exact authenticate_spec. Qed.
Print Assumptions C37_poly1305.

(** one block and the final reduction from every state the loop can be in (limbs nearly reduced); [m] covers
    the checked build, so no addition or multiplication overflows *)
Theorem C37_block : forall m p rx a block partial,
  r_ok (pr p) rx -> h_ok (ph p) a -> length block = 16%nat ->
  exists h, compute_block m p block partial = Ok (Poly (pr p) h (ppad p)) /\
            h_ok h (rx * (a + (le_val block + if partial then 0 else 2 ^ 128))).
Proof. exact compute_block_ok. Qed.
Print Assumptions C37_block.

Theorem C37_final : forall m p a s, h_ok (ph p) a -> length s = 16%nat -> ppad p = read_u32_le s ->
  finalize m p = Ok (le 16 (a mod P1305 + le_val s)).
Proof. exact finalize_ok. Qed.
Print Assumptions C37_final.

(** the accumulator at 2^130 - 1, above the modulus *)
Example ex_wrap : h_ok [2 ^ 26 - 1; 2 ^ 26 - 1; 2 ^ 26 - 1; 2 ^ 26 - 1; 2 ^ 26 - 1] 4 /\
  finalize Debug (Poly [0; 0; 0; 0; 0] [2 ^ 26 - 1; 2 ^ 26 - 1; 2 ^ 26 - 1; 2 ^ 26 - 1; 2 ^ 26 - 1] [0; 0; 0; 0]) = Ok (le 16 4).
Proof.
  split; [|vm_compute; reflexivity]. eexists _, _, _, _, _. split; [reflexivity|]. split; [reflexivity|]. lia.
Qed.
(** src/crypto/poly1305.rs, first test vector *)
Example ex_poly : authenticate Debug [xf3; xf6]
  [x85; x1f; xc4; x0c; x34; x67; xac; x0b; xe0; x5c; xc2; x04; x04; xf3; xf7; x00]
  [x58; x0b; x3b; x0f; x94; x47; xbb; x1e; x69; xd0; x95; xb5; x92; x8b; x6d; xbc] = Ok
  [xf4; xc6; x33; xc3; x04; x4f; xc1; x45; xf8; x4f; x33; x5c; xb8; x19; x53; xde].
Proof. vm_compute. reflexivity. Qed.

(** ** C38 *)
Theorem C38_sha256 : forall m msg, zlen msg < 2 ^ 61 -> sha256 m msg = Ok (SHA256 msg).
Proof. exact sha256_spec. Qed.
Print Assumptions C38_sha256.

(** the specification's padding is the one of FIPS 180-4 5.1.1: whole blocks, least number of zeros, injective *)
Theorem C38_padding : forall msg,
  (length (fips_pad msg) mod 64 = 0)%nat /\
  ((length msg + 1 + pad_zeros (length msg)) mod 64 = 56)%nat /\
  (forall z, ((length msg + 1 + z) mod 64 = 56)%nat -> (pad_zeros (length msg) <= z)%nat).
Proof. exact (fun msg => conj (fips_pad_length msg) (conj (proj2 (pad_zeros_spec (length msg))) (pad_zeros_least (length msg)))). Qed.
Print Assumptions C38_padding.

Theorem C38_padding_injective : forall a b, zlen a < 2 ^ 61 -> zlen b < 2 ^ 61 -> fips_pad a = fips_pad b -> a = b.
Proof. exact fips_pad_inj. Qed.
Print Assumptions C38_padding_injective.

(** the schedule of the specification satisfies the recurrence printed in FIPS 180-4 6.2.2 *)
Theorem C38_schedule : forall blk,
  (forall t, (t < 16)%nat -> W_ blk t = word_be blk t) /\
  (forall t, (16 <= t < 64)%nat ->
    W_ blk t = (sigma1 (W_ blk (t - 2)) + W_ blk (t - 7) + sigma0 (W_ blk (t - 15)) + W_ blk (t - 16)) mod 2 ^ 32).
Proof. exact (fun blk => conj (W_low blk) (W_high blk)). Qed.
Print Assumptions C38_schedule.

(** the constants are the fractional parts of roots of primes: [icbrt] is the integer cube root *)
Theorem C38_cube_roots : forall k n acc, 0 <= acc -> acc ^ 3 <= n < (acc + 2 ^ Z.of_nat k) ^ 3 ->
  let c := icbrt k n acc in acc <= c /\ c ^ 3 <= n < (c + 1) ^ 3.
Proof. exact icbrt_spec. Qed.
Print Assumptions C38_cube_roots.

Theorem C38_constants : K256 = map K_frac (seq 0 64) /\ INIT_VECTOR = map H_frac (seq 0 8).
Proof. exact (conj K256_spec INIT_spec). Qed.
Print Assumptions C38_constants.

(** beyond: the bit length overflows and a debug build panics *)
Theorem C38_too_long : forall msg, 2 ^ 61 <= zlen msg -> sha256 Debug msg = Panic.
Proof. exact sha256_too_long. Qed.
Print Assumptions C38_too_long.

Example ex_sha : sha256 Debug [x61; x62; x63] = Ok
  [xba; x78; x16; xbf; x8f; x01; xcf; xea; x41; x41; x40; xde; x5d; xae; x22; x23; xb0; x03; x61; xa3; x96; x17; x7a; x9c; xb4; x10; xff; x61; xf2; x00; x15; xad].
Proof. vm_compute. reflexivity. Qed.

(** ** C39 *)
Theorem C39_hmac : forall m key msg, (length key <= 64)%nat -> zlen msg + 64 < 2 ^ 61 ->
  hmac_sha256 m key msg = Ok (HMAC key msg).
Proof. exact hmac_spec. Qed.
Print Assumptions C39_hmac.

Theorem C39_hmac_long_key : forall m key msg, (64 < length key)%nat -> hmac_sha256 m key msg = Panic.
Proof. exact hmac_long_key. Qed.
Print Assumptions C39_hmac_long_key.

Theorem C39_prf_requests : forall m secret seed sizes n,
  (length secret <= 64)%nat -> zlen seed + 96 < 2 ^ 61 -> (total_req sizes <= 32 * n)%nat ->
  exists p outs p', prf_new m secret seed = Ok p /\ requests m sizes p = Ok (outs, p') /\
    map (@length byte) outs = sizes /\ concat outs = firstn (total_req sizes) (P_hash secret seed n).
Proof. exact prf_requests. Qed.
Print Assumptions C39_prf_requests.

Theorem C39_boundaries_do_not_matter : forall m secret seed s1 s2 p o1 p1 o2 p2,
  (length secret <= 64)%nat -> zlen seed + 96 < 2 ^ 61 ->
  prf_new m secret seed = Ok p -> total_req s1 = total_req s2 ->
  requests m s1 p = Ok (o1, p1) -> requests m s2 p = Ok (o2, p2) -> concat o1 = concat o2.
Proof. exact prf_boundaries. Qed.
Print Assumptions C39_boundaries_do_not_matter.

Example ex_requests : total_req [48; 0; 7; 33]%nat = 88%nat /\ (length (zeros 48) <= 64)%nat.
Proof. split; [reflexivity|cbn; lia]. Qed.

(** ** C40 *)
Theorem C40_seal : forall m key nonce plain ad,
  length key = 32%nat -> length nonce = 12%nat -> fits plain ->
  aead_encrypt m key nonce plain ad = Ok (aead_seal key nonce ad plain).
Proof. exact aead_encrypt_spec. Qed.
Print Assumptions C40_seal.

Theorem C40_open_seal : forall m key nonce ad plain,
  length key = 32%nat -> length nonce = 12%nat -> fits plain ->
  aead_decrypt m key nonce (aead_seal key nonce ad plain) ad = Ok plain.
Proof. exact open_seal. Qed.
Print Assumptions C40_open_seal.

Theorem C40_open_accepts_only_sealings : forall m key nonce ad data plain,
  length key = 32%nat -> length nonce = 12%nat -> fits data ->
  aead_decrypt m key nonce data ad = Ok plain <-> data = aead_seal key nonce ad plain.
Proof. exact open_iff_seal. Qed.
Print Assumptions C40_open_accepts_only_sealings.

Theorem C40_otherwise_bad_record_mac : forall m key nonce ad data,
  length key = 32%nat -> length nonce = 12%nat -> fits data ->
  (exists plain, aead_decrypt m key nonce data ad = Ok plain) \/ aead_decrypt m key nonce data ad = Err BadRecordMac.
Proof. exact open_outcomes. Qed.
Print Assumptions C40_otherwise_bad_record_mac.

Theorem C40_short_refused : forall m key nonce data ad,
  (length data < 16)%nat -> aead_decrypt m key nonce data ad = Err BadRecordMac.
Proof. exact aead_decrypt_short. Qed.
Print Assumptions C40_short_refused.

(** src/cipher/chacha20_poly1305.rs, the test vector, sealed and opened *)
Example ex_aead : let key := [x4e; x7c; x86; xc2; xb2; x9f; xba; x79; x27; x96; x7d; x34; x29; x2b; x85; xbc; x10; x71; x53; xff; x2f; x62; xe7; xc2; x8e; x6c; x31; xc1; x3b; xac; xdd; xd2] in
  let nonce := [x3f; x8f; x9e; xc1; x0c; x4a; x20; xc8; xf6; x74; xf3; x03] in let ad := [x00; x00; x00; x00; x00; x00; x00; x00; x16; x03; x03; x00; x10] in
  let plain := [x14; x00; x00; x0c; x52; xb0; x30; x42; x66; x95; x8e; x84; xe6; xcc; x99; xce] in
  let sealed := [x75; x63; x11; x90; x09; x40; x7c; x5a; xd5; xd6; x2c; x3b; x36; x98; x21; xa5; x9a; xd5; x72; x56; xe1; x73; xb2; x3a; x80; x80; xe9; xf1; x94; x79; xf8; x19] in
  aead_encrypt Debug key nonce plain ad = Ok sealed /\ aead_decrypt Debug key nonce sealed ad = Ok plain.
Proof. vm_compute. split; reflexivity. Qed.

(** ** C41 *)
Theorem C41_mac_input_injective : forall ad ct ad' ct',
  zlen ad < 2 ^ 64 -> zlen ct < 2 ^ 64 -> zlen ad' < 2 ^ 64 -> zlen ct' < 2 ^ 64 ->
  aead_mac_data ad ct = aead_mac_data ad' ct' -> ad = ad' /\ ct = ct'.
Proof. exact aead_mac_data_inj. Qed.
Print Assumptions C41_mac_input_injective.

Theorem C41_code_builds_it : forall ct ad, mac_input ct ad = aead_mac_data ad ct.
Proof. exact mac_input_spec. Qed.
Print Assumptions C41_code_builds_it.

(** trailing zero bytes, which the padding could hide, are told apart *)
Example ex_mac_input : aead_mac_data [x01] [] <> aead_mac_data [x01; x00] [] /\ aead_mac_data [] [x01] <> aead_mac_data [x01] [].
Proof. split; discriminate. Qed.

(** ** The record layer over the real cipher *)
(** the assumptions [opens] and [seals] of C12, C14, C15, C23 hold of ChaCha20-Poly1305, for every key *)
Theorem C15_real_cipher : forall m key, length key = 32%nat ->
  opens (new_encryptor m key) (new_decryptor m key) /\ seals (new_encryptor m key) 16.
Proof. exact (fun m key H => conj (aead_opens m key H) (aead_seals m key H)). Qed.
Print Assumptions C15_real_cipher.

Theorem C17_real_cipher_refuted : exists m key iv w ops l1 l2,
  length key = 32%nat /\ length iv = 12%nat /\ w_enc w = Some (new_encryptor m key) /\ w_iv w = Some iv /\
  w_count w = 0 /\ w_log w = [] /\
  w_log (snd (run_ops m ops w)) = [l1; l2] /\ log_nonce l1 = log_nonce l2 /\ log_plain l1 <> log_plain l2.
Proof. exact real_reuse. Qed.
Print Assumptions C17_real_cipher_refuted.

(** what the reuse costs: the two ciphertexts of equally long payloads xor to the xor of the plaintexts *)
Theorem C17_reuse_leaks_plaintexts : forall m key nonce ad1 ad2 p1 p2 c1 c2 i,
  length key = 32%nat -> length nonce = 12%nat -> fits p1 -> fits p2 ->
  aead_encrypt m key nonce p1 ad1 = Ok c1 -> aead_encrypt m key nonce p2 ad2 = Ok c2 ->
  (i < length p1)%nat -> (i < length p2)%nat ->
  bxor (nth i c1 x00) (nth i c2 x00) = bxor (nth i p1 x00) (nth i p2 x00).
Proof. exact reuse_leaks. Qed.
Print Assumptions C17_reuse_leaks_plaintexts.

Theorem C19_real_cipher_refuted : forall m key iv t p,
  length key = 32%nat -> length iv = 12%nat -> 16384 < zlen p <= 16384 + 2048 - 16 ->
  exists c, aead_encrypt m key (rfc_nonce iv 0) p (rfc_ad 0 t x03 x03 (zlen p)) = Ok c /\
    fst (read_record m (Reader [RData (e_record t c)] (Some (new_decryptor m key)) 0 [] (Some iv))) = Panic.
Proof. exact real_overflow. Qed.
Print Assumptions C19_real_cipher_refuted.

Theorem C23_real_cipher : forall m key iv peer n r,
  length key = 32%nat -> length iv = 12%nat -> sealed_by (new_encryptor m key) iv peer -> zlen peer < 2 ^ 64 ->
  r_dec r = Some (new_decryptor m key) -> r_iv r = Some iv -> r_count r = 0 ->
  (exists rest, app_bytes (map fst peer) = concat (oks (fst (reads (read_application_data m) n r))) ++ rest) \/
  (* the wire carries a ChaCha20-Poly1305 sealing under this key which the peer never made *)
  (exists before after k t maj min p,
    let ad := rfc_ad k t maj min (zlen p) in
    let c := aead_seal key (rfc_nonce iv k) ad p in
    0 <= k < 2 ^ 64 /\ all_bytes (r_src r) = before ++ wire t maj min c ++ after /\
    ~ produced iv peer (rfc_nonce iv k) ad c).
Proof. exact real_genuine. Qed.
Print Assumptions C23_real_cipher.

Theorem C24_real_cipher_refuted : forall m key iv v z,
  length key = 32%nat -> length iv = 12%nat -> length v = 11%nat ->
  exists c, aead_encrypt m key (rfc_nonce iv 0) [z] (rfc_ad 0 HandshakeTy x03 x03 1) = Ok c /\
  fst ((do* _ := read_change_cipher_spec m in do* _ := r_set_decryptor (new_decryptor m key) in read_handshake m)
         (Reader [RData (e_record HandshakeTy ([x14] ++ be 3 12 ++ v) ++ e_record ChangeCipherSpecTy [x01] ++ e_record HandshakeTy c)]
                 None 1 [] (Some iv))) = Ok (finished (v ++ [z])).
Proof. exact real_straddle. Qed.
Print Assumptions C24_real_cipher_refuted.
