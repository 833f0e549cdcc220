(** Specifications of the symmetric primitives, written from the standards (RFC 7539, FIPS 180-4, RFC 2104,
    RFC 5246 section 5), independently of the model.  Words are integers in [0, 2^32). *)
From Verif Require Export Base.

(** ** 32-bit words, arithmetically *)
Definition add32s (a b : Z) : Z := (a + b) mod 2 ^ 32.
(** rotations move the high (low) bits to the other end *)
Definition rol (x n : Z) : Z := (x * 2 ^ n) mod 2 ^ 32 + x / 2 ^ (32 - n).
Definition ror (x n : Z) : Z := x / 2 ^ n + (x mod 2 ^ n) * 2 ^ (32 - n).
Definition is_word (x : Z) : Prop := 0 <= x < 2 ^ 32.

(** ** ChaCha20, RFC 7539 section 2 *)
(** 2.1: the quarter round on four numbers *)
Definition QUARTERROUND (t : Z * Z * Z * Z) : Z * Z * Z * Z :=
  let '(a, b, c, d) := t in
  let a := add32s a b in let d := rol (Z.lxor d a) 16 in
  let c := add32s c d in let b := rol (Z.lxor b c) 12 in
  let a := add32s a b in let d := rol (Z.lxor d a) 8 in
  let c := add32s c d in let b := rol (Z.lxor b c) 7 in
  (a, b, c, d).

(** 2.2: the state is sixteen numbers; QUARTERROUND(x, y, z, w) works on four of them *)
Definition cstate := nat -> Z.
Definition QR (x y z w : nat) (s : cstate) : cstate := fun i =>
  let '(a, b, c, d) := QUARTERROUND (s x, s y, s z, s w) in
  if Nat.eqb i x then a else if Nat.eqb i y then b else if Nat.eqb i z then c
  else if Nat.eqb i w then d else s i.

(** 2.3.1: inner_block *)
Definition inner_block (s : cstate) : cstate :=
  QR 3 4 9 14 (QR 2 7 8 13 (QR 1 6 11 12 (QR 0 5 10 15
  (QR 3 7 11 15 (QR 2 6 10 14 (QR 1 5 9 13 (QR 0 4 8 12 s))))))).

(** 2.3: the initial state: constants "expand 32-byte k", key, block count, nonce, all little-endian *)
Definition byte_at (bs : bytes) (i : nat) : Z := b2z (nth i bs x00).
Definition word_le (bs : bytes) (j : nat) : Z :=
  byte_at bs (4 * j) + 2 ^ 8 * byte_at bs (4 * j + 1) + 2 ^ 16 * byte_at bs (4 * j + 2) + 2 ^ 24 * byte_at bs (4 * j + 3).
(** ASCII of "expand 32-byte k" *)
Definition sigma : bytes :=
  [x65; x78; x70; x61; x6e; x64; x20; x33; x32; x2d; x62; x79; x74; x65; x20; x6b].
Definition chacha_init (key : bytes) (count : Z) (nonce : bytes) : cstate := fun i =>
  if (i <? 4)%nat then word_le sigma i
  else if (i <? 12)%nat then word_le key (i - 4)
  else if Nat.eqb i 12 then count
  else word_le nonce (i - 13).

(** 2.3.1: chacha20_block: ten double rounds, add the initial state, serialize *)
Definition chacha20_block (key : bytes) (count : Z) (nonce : bytes) : bytes :=
  let s := chacha_init key count nonce in
  let w := Nat.iter 10 inner_block s in
  concat (map (fun i => le 4 (add32s (w i) (s i))) (seq 0 16)).

(** 2.4: byte [i] of the key stream that starts at block [count]; encryption xors it in *)
Definition keystream (key nonce : bytes) (count : Z) (i : nat) : byte :=
  nth (i mod 64) (chacha20_block key (count + Z.of_nat (i / 64)) nonce) x00.
Definition chacha20_encrypt (key : bytes) (count : Z) (nonce data : bytes) : bytes :=
  map (fun i => bxor (nth i data x00) (keystream key nonce count i)) (seq 0 (length data)).
(** number of 64-byte blocks covering [n] bytes *)
Definition blocks64 (n : nat) : Z := (Z.of_nat n + 63) / 64.

(** ** Poly1305, RFC 7539 section 2.5 *)
Definition P1305 : Z := 2 ^ 130 - 5.
Definition clamp (r : Z) : Z := Z.land r 0x0ffffffc0ffffffc0ffffffc0fffffff.
(** the [i]-th 16-byte block of the message (the last may be shorter), read little-endian with a byte 1 appended *)
Definition mblock (msg : bytes) (i : nat) : bytes := firstn 16 (skipn (16 * i) msg).
Definition block_num (msg : bytes) (i : nat) : Z :=
  le_val (mblock msg i) + 2 ^ (8 * Z.of_nat (length (mblock msg i))).
(** the accumulator after [n] blocks *)
Fixpoint poly_acc (r : Z) (msg : bytes) (n : nat) : Z :=
  match n with
  | O => 0
  | S k => (r * (poly_acc r msg k + block_num msg k)) mod P1305
  end.
Definition nblocks (msg : bytes) : nat := (length msg + 15) / 16.
Definition poly1305_mac (msg r s : bytes) : bytes :=
  le 16 (poly_acc (clamp (le_val r)) msg (nblocks msg) + le_val s).

(** ** AEAD_CHACHA20_POLY1305, RFC 7539 section 2.8 *)
(** zero bytes up to the next multiple of 16 *)
Definition pad16_len (n : nat) : nat := (16 - n mod 16) mod 16.
Definition aead_mac_data (aad ct : bytes) : bytes :=
  aad ++ zeros (pad16_len (length aad)) ++ ct ++ zeros (pad16_len (length ct)) ++
  le 8 (zlen aad) ++ le 8 (zlen ct).
Definition poly_key_gen (key nonce : bytes) : bytes := firstn 32 (chacha20_block key 0 nonce).
Definition aead_seal (key nonce aad plain : bytes) : bytes :=
  let otk := poly_key_gen key nonce in
  let ct := chacha20_encrypt key 1 nonce plain in
  ct ++ poly1305_mac (aead_mac_data aad ct) (firstn 16 otk) (skipn 16 otk).

(** ** SHA-256, FIPS 180-4 *)
(** 4.2.2, 5.3.3: the constants are the first 32 bits of the fractional parts of the cube (square) roots of
    the first 64 (8) primes *)
Definition is_prime_b (n : Z) : bool :=
  (1 <? n) && forallb (fun d => negb (n mod Z.of_nat d =? 0)) (seq 2 (Z.to_nat (Z.sqrt n) - 1)).
Definition primes : list Z := filter is_prime_b (map Z.of_nat (seq 0 312)).
(** integer cube root below 2^k, bit by bit *)
Fixpoint icbrt (k : nat) (n acc : Z) : Z :=
  match k with
  | O => acc
  | S j => let t := acc + 2 ^ Z.of_nat j in icbrt j n (if t ^ 3 <=? n then t else acc)
  end.
Definition K_frac (t : nat) : Z := icbrt 36 (nth t primes 0 * 2 ^ 96) 0 mod 2 ^ 32.
Definition H_frac (i : nat) : Z := Z.sqrt (nth i primes 0 * 2 ^ 64) mod 2 ^ 32.

(** 4.1.2 *)
Definition Ch (x y z : Z) : Z := Z.lxor (Z.land x y) (Z.land (2 ^ 32 - 1 - x) z).
Definition Maj (x y z : Z) : Z := Z.lxor (Z.lxor (Z.land x y) (Z.land x z)) (Z.land y z).
Definition Sigma0 (x : Z) : Z := Z.lxor (Z.lxor (ror x 2) (ror x 13)) (ror x 22).
Definition Sigma1 (x : Z) : Z := Z.lxor (Z.lxor (ror x 6) (ror x 11)) (ror x 25).
Definition sigma0 (x : Z) : Z := Z.lxor (Z.lxor (ror x 7) (ror x 18)) (x / 2 ^ 3).
Definition sigma1 (x : Z) : Z := Z.lxor (Z.lxor (ror x 17) (ror x 19)) (x / 2 ^ 10).

(** 5.1.1: append 1, then k zero bits, k least with l + 1 + k = 448 mod 512, then the length in 64 bits *)
Definition pad_zeros (len : nat) : nat := (119 - len mod 64) mod 64.
Definition fips_pad (msg : bytes) : bytes :=
  msg ++ [x80] ++ zeros (pad_zeros (length msg)) ++ be 8 (8 * zlen msg).

Definition word_be (bs : bytes) (j : nat) : Z :=
  2 ^ 24 * byte_at bs (4 * j) + 2 ^ 16 * byte_at bs (4 * j + 1) + 2 ^ 8 * byte_at bs (4 * j + 2) + byte_at bs (4 * j + 3).

(** 6.2.2 step 1: [sched blk n] lists W_0 .. W_(n-1) *)
Fixpoint sched (blk : bytes) (n : nat) : list Z :=
  match n with
  | O => []
  | S t =>
      let W := sched blk t in
      W ++ [if (t <? 16)%nat then word_be blk t
            else (sigma1 (nth (t - 2) W 0) + nth (t - 7) W 0 + sigma0 (nth (t - 15) W 0) + nth (t - 16) W 0) mod 2 ^ 32]
  end.
Definition W_ (blk : bytes) (t : nat) : Z := nth t (sched blk 64) 0.

(** steps 2 and 3: the eight working variables after [n] rounds *)
Definition eight := (Z * Z * Z * Z * Z * Z * Z * Z)%type.
Fixpoint rounds (blk : bytes) (H : eight) (n : nat) : eight :=
  match n with
  | O => H
  | S t =>
      let '(a, b, c, d, e, f, g, h) := rounds blk H t in
      let T1 := (h + Sigma1 e + Ch e f g + K_frac t + W_ blk t) mod 2 ^ 32 in
      let T2 := (Sigma0 a + Maj a b c) mod 2 ^ 32 in
      (add32s T1 T2, a, b, c, add32s d T1, e, f, g)
  end.
(** step 4 *)
Definition sha_compress (blk : bytes) (H : eight) : eight :=
  let '(a, b, c, d, e, f, g, h) := rounds blk H 64 in
  let '(h0, h1, h2, h3, h4, h5, h6, h7) := H in
  (add32s a h0, add32s b h1, add32s c h2, add32s d h3, add32s e h4, add32s f h5, add32s g h6, add32s h h7).
Definition H0 : eight :=
  (H_frac 0, H_frac 1, H_frac 2, H_frac 3, H_frac 4, H_frac 5, H_frac 6, H_frac 7).
(** the chaining value after the first [n] blocks of the padded message *)
Fixpoint chain (padded : bytes) (n : nat) : eight :=
  match n with
  | O => H0
  | S k => sha_compress (firstn 64 (skipn (64 * k) padded)) (chain padded k)
  end.
Definition SHA256 (msg : bytes) : bytes :=
  let p := fips_pad msg in
  let '(h0, h1, h2, h3, h4, h5, h6, h7) := chain p (length p / 64) in
  be 4 h0 ++ be 4 h1 ++ be 4 h2 ++ be 4 h3 ++ be 4 h4 ++ be 4 h5 ++ be 4 h6 ++ be 4 h7.

(** ** HMAC, RFC 2104 (B = 64, L = 32) *)
Definition hmac_key (K : bytes) : bytes :=
  let K' := if (64 <? length K)%nat then SHA256 K else K in K' ++ zeros (64 - length K').
Definition HMAC (K text : bytes) : bytes :=
  SHA256 (map (bxor x5c) (hmac_key K) ++ SHA256 (map (bxor x36) (hmac_key K) ++ text)).

(** ** P_hash and the PRF, RFC 5246 section 5 *)
Fixpoint A_ (secret seed : bytes) (i : nat) : bytes :=
  match i with O => seed | S k => HMAC secret (A_ secret seed k) end.
(** the first [n] blocks of P_SHA256(secret, seed) *)
Definition P_hash (secret seed : bytes) (n : nat) : bytes :=
  concat (map (fun i => HMAC secret (A_ secret seed i ++ seed)) (seq 1 n)).
