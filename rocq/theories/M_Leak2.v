(** The programs of [M_Leak.v] continued: src/crypto/chacha20.rs, src/crypto/poly1305.rs, src/cipher/chacha20_poly1305.rs,
    src/crypto/sha2.rs and [hmac_sha256] of src/cipher/prf.rs.  Bytes are words below 256. *)
From Verif Require Export M_Aead M_Prf M_Leak.

Section Code2.
Context {W : Type}.

(** [for x in l] collecting results *)
Fixpoint mapp {I B} (f : I -> prog W B) (l : list I) : prog W (list B) :=
  match l with [] => Ret [] | i :: l' => let! x := f i in let! r := mapp f l' in Ret (x :: r) end.
(** [read_u32_into], [write_u32_into] (src/crypto/chacha20.rs:23-27, 88, src/crypto/poly1305.rs:24, src/crypto/sha2.rs:49, 106) *)
Definition t_read_u32 (be : bool) (bs : list W) : prog W (list W) := mapp (fun c => Pack be c Ret) (chunks 4 bs).
(** the same for writing *)
Definition t_write_u32 (be : bool) (ws : list W) : prog W (list W) := let! l := mapp (fun w => Unpack be 4 w Ret) ws in Ret (concat l).

(** ** src/crypto/chacha20.rs *)
(** chacha20.rs:11-30 [new] *)
Definition t_chacha_new (key nonce : list W) : prog W (list W) :=
  if negb (Nat.eqb (length key) 32) then Fail
  else if negb (Nat.eqb (length nonce) 12) then Fail
  else
    let! c := consts [0x61707865; 0x3320646e; 0x79622d32; 0x6b206574] in
    let! k := t_read_u32 false key in
    let! z := const 0 in
    let! n := t_read_u32 false nonce in
    Ret (c ++ k ++ [z] ++ n).
(** [e[x] = e[x].wrapping_add(e[y])] (chacha20.rs:35-49) *)
Definition t_qadd (e : list W) (x y : nat) : prog W (list W) :=
  let! u := load e x in let! v := load e y in let! u := bin (Add 32) u v in store x u e.
(** [e[x] = e[x] ^ e[y]] (chacha20.rs:36-49) *)
Definition t_qxor (e : list W) (x y : nat) : prog W (list W) :=
  let! u := load e x in let! v := load e y in let! u := bin Xor u v in store x u e.
(** [e[x] = e[x].rotate_left(n)] (chacha20.rs:37-49) *)
Definition t_qrot (e : list W) (x : nat) (n : Z) : prog W (list W) :=
  let! u := load e x in let! u := un (Rotl n) u in store x u e.
(** chacha20.rs:33-57 [quarter_round_idx!] *)
Definition t_quarter_round (e : list W) (q : nat * nat * nat * nat) : prog W (list W) :=
  let '(a, b, c, d) := q in
  let! e := t_qadd e a b in let! e := t_qxor e d a in let! e := t_qrot e d 16 in
  let! e := t_qadd e c d in let! e := t_qxor e b c in let! e := t_qrot e b 12 in
  let! e := t_qadd e a b in let! e := t_qxor e d a in let! e := t_qrot e d 8 in
  let! e := t_qadd e c d in let! e := t_qxor e b c in t_qrot e b 7.
(** chacha20.rs:62-71: the indices of the eight quarter rounds *)
Definition quarters : list (nat * nat * nat * nat) :=
  [(0, 4, 8, 12); (1, 5, 9, 13); (2, 6, 10, 14); (3, 7, 11, 15); (0, 5, 10, 15); (1, 6, 11, 12); (2, 7, 8, 13); (3, 4, 9, 14)]%nat.
(** chacha20.rs:32-79 [round20] *)
Definition t_round20 (vals : list W) : prog W (list W) :=
  let! v := foldp (fun v (_ : nat) => foldp t_quarter_round quarters v) (seq 0 10) vals in
  mapp (fun i => let! x := load v i in let! y := load vals i in bin (Add 32) x y) (seq 0 16).
(** chacha20.rs:81-91 [next] *)
Definition t_chacha_next (m : mode) (vals : list W) : prog W (list W * list W) :=
  let! nxt := t_round20 vals in
  let! c := load vals 12 in
  let! one := const 1 in
  let! c := checked m (Add 32) c one in
  let! vals := store 12 c vals in
  let! bs := t_write_u32 false nxt in
  Ret (bs, vals).
(** chacha20.rs:104: [next.iter().zip(chunk.iter()).map(^)] *)
Fixpoint t_xor_zip (a b : list W) : prog W (list W) :=
  match a, b with
  | x :: a', y :: b' => let! z := bin Xor x y in let! r := t_xor_zip a' b' in Ret (z :: r)
  | _, _ => Ret []
  end.
(** chacha20.rs:102-106: one turn of the loop of [encrypt] *)
Definition t_chacha_chunk (m : mode) (st : list W * list W) (chunk : list W) : prog W (list W * list W) :=
  let '(ret, vals) := st in
  let! (nxt, vals) := t_chacha_next m vals in
  let! x := t_xor_zip nxt chunk in
  Ret (ret ++ x, vals).
(** chacha20.rs:99-109 [encrypt] *)
Definition t_chacha_encrypt (m : mode) (vals data : list W) : prog W (list W * list W) :=
  foldp (t_chacha_chunk m) (chunks 64 data) ([], vals).

(** ** src/crypto/poly1305.rs *)
(** poly1305.rs:8-12 *)
Record tpoly := TPoly { tpr : list W; tph : list W; tppad : list W }.
(** [u32::from_le_bytes(bs[i..j])] (poly1305.rs:18-22, 49-53) *)
Definition t_le32 (bs : list W) (i j : nat) : prog W W := Copy i j (Pack false (firstn (j - i) (skipn i bs)) Ret).
(** [u32::from_le_bytes(bs[i..j]) >> n & mask] (poly1305.rs:18-22, 49-52) *)
Definition t_limb (bs : list W) (i j : nat) (n mask : Z) : prog W W :=
  let! x := t_le32 bs i j in
  let! x := if n =? 0 then Ret x else un (Shr n) x in
  let! k := const mask in bin And x k.
(** poly1305.rs:15-27 [new] *)
Definition t_poly_new (r s : list W) : prog W tpoly :=
  let! r0 := t_limb r 0 4 0 0x3ffffff in
  let! r1 := t_limb r 3 7 2 0x3ffff03 in
  let! r2 := t_limb r 6 10 4 0x3ffc0ff in
  let! r3 := t_limb r 9 13 6 0x3f03fff in
  let! r4 := t_limb r 12 16 8 0x00fffff in
  let! h := consts [0; 0; 0; 0; 0] in
  let! pad := t_read_u32 false s in
  Ret (TPoly [r0; r1; r2; r3; r4] h pad).
(** poly1305.rs:56-84 *)
Definition t_dot5 (m : mode) (a0 b0 a1 b1 a2 b2 a3 b3 a4 b4 : W) : prog W W :=
  let! p0 := checked m (Mul 64) a0 b0 in
  let! p1 := checked m (Mul 64) a1 b1 in
  let! x := checked m (Add 64) p0 p1 in
  let! p2 := checked m (Mul 64) a2 b2 in
  let! x := checked m (Add 64) x p2 in
  let! p3 := checked m (Mul 64) a3 b3 in
  let! x := checked m (Add 64) x p3 in
  let! p4 := checked m (Mul 64) a4 b4 in
  checked m (Add 64) x p4.
(** [c = (d >> 26) as u32; h = d as u32 & 0x3ff_ffff] (poly1305.rs:88-104) *)
Definition t_split64 (d : W) : prog W (W * W) :=
  let! c := un (Shr 26) d in let! c := un (Low 32) c in
  let! h := un (Low 32) d in let! k := const 0x3ffffff in let! h := bin And h k in
  Ret (c, h).
(** [c = h >> 26; h &= 0x3ff_ffff] (poly1305.rs:108-109, 129-166) *)
Definition t_split32 (h : W) : prog W (W * W) :=
  let! c := un (Shr 26) h in let! k := const 0x3ffffff in let! h := bin And h k in
  Ret (c, h).
(** poly1305.rs:28-117 [compute_block] *)
Definition t_compute_block (m : mode) (p : tpoly) (block : list W) (partial : bool) : prog W tpoly :=
  let! r0 := load (tpr p) 0 in let! r1 := load (tpr p) 1 in let! r2 := load (tpr p) 2 in
  let! r3 := load (tpr p) 3 in let! r4 := load (tpr p) 4 in
  let! k := const 5 in let! s1 := checked m (Mul 32) r1 k in
  let! k := const 5 in let! s2 := checked m (Mul 32) r2 k in
  let! k := const 5 in let! s3 := checked m (Mul 32) r3 k in
  let! k := const 5 in let! s4 := checked m (Mul 32) r4 k in
  let! h0 := load (tph p) 0 in let! b := t_limb block 0 4 0 0x3ffffff in let! h0 := checked m (Add 32) h0 b in
  let! h1 := load (tph p) 1 in let! b := t_limb block 3 7 2 0x3ffffff in let! h1 := checked m (Add 32) h1 b in
  let! h2 := load (tph p) 2 in let! b := t_limb block 6 10 4 0x3ffffff in let! h2 := checked m (Add 32) h2 b in
  let! h3 := load (tph p) 3 in let! b := t_limb block 9 13 6 0x3ffffff in let! h3 := checked m (Add 32) h3 b in
  let! h4 := load (tph p) 4 in let! b := t_le32 block 12 16 in let! b := un (Shr 8) b in
  let! hibit := const (if partial then 0 else 2 ^ 24) in let! b := bin Or b hibit in let! h4 := checked m (Add 32) h4 b in
  let! d0 := t_dot5 m h0 r0 h1 s4 h2 s3 h3 s2 h4 s1 in
  let! d1 := t_dot5 m h0 r1 h1 r0 h2 s4 h3 s3 h4 s2 in
  let! d2 := t_dot5 m h0 r2 h1 r1 h2 r0 h3 s4 h4 s3 in
  let! d3 := t_dot5 m h0 r3 h1 r2 h2 r1 h3 r0 h4 s4 in
  let! d4 := t_dot5 m h0 r4 h1 r3 h2 r2 h3 r1 h4 r0 in
  let! (c, h0) := t_split64 d0 in
  let! d1 := checked m (Add 64) d1 c in
  let! (c, h1) := t_split64 d1 in
  let! d2 := checked m (Add 64) d2 c in
  let! (c, h2) := t_split64 d2 in
  let! d3 := checked m (Add 64) d3 c in
  let! (c, h3) := t_split64 d3 in
  let! d4 := checked m (Add 64) d4 c in
  let! (c, h4) := t_split64 d4 in
  let! k := const 5 in let! c5 := checked m (Mul 32) c k in
  let! h0 := checked m (Add 32) h0 c5 in
  let! (c, h0) := t_split32 h0 in
  let! h1 := checked m (Add 32) h1 c in
  Ret (TPoly (tpr p) [h0; h1; h2; h3; h4] (tppad p)).
(** poly1305.rs:120-206 [finalize] *)
Definition t_finalize (m : mode) (p : tpoly) : prog W (list W) :=
  let! h0 := load (tph p) 0 in let! h1 := load (tph p) 1 in let! h2 := load (tph p) 2 in
  let! h3 := load (tph p) 3 in let! h4 := load (tph p) 4 in
  let! (c, h1) := t_split32 h1 in
  let! h2 := checked m (Add 32) h2 c in
  let! (c, h2) := t_split32 h2 in
  let! h3 := checked m (Add 32) h3 c in
  let! (c, h3) := t_split32 h3 in
  let! h4 := checked m (Add 32) h4 c in
  let! (c, h4) := t_split32 h4 in
  let! k := const 5 in let! c5 := checked m (Mul 32) c k in
  let! h0 := checked m (Add 32) h0 c5 in
  let! (c, h0) := t_split32 h0 in
  let! h1 := checked m (Add 32) h1 c in
  let! k := const 5 in let! g0 := bin (Add 32) h0 k in let! (c, g0) := t_split32 g0 in
  let! g1 := bin (Add 32) h1 c in let! (c, g1) := t_split32 g1 in
  let! g2 := bin (Add 32) h2 c in let! (c, g2) := t_split32 g2 in
  let! g3 := bin (Add 32) h3 c in let! (c, g3) := t_split32 g3 in
  let! g4 := bin (Add 32) h4 c in let! k := const (2 ^ 26) in let! g4 := bin (Sub 32) g4 k in
  let! t := un (Shr 31) g4 in let! k := const 1 in let! mask := bin (Sub 32) t k in
  let! g0 := bin And g0 mask in let! g1 := bin And g1 mask in let! g2 := bin And g2 mask in
  let! g3 := bin And g3 mask in let! g4 := bin And g4 mask in
  let! mask := un Not mask in
  let! h0 := bin And h0 mask in let! h0 := bin Or h0 g0 in
  let! h1 := bin And h1 mask in let! h1 := bin Or h1 g1 in
  let! h2 := bin And h2 mask in let! h2 := bin Or h2 g2 in
  let! h3 := bin And h3 mask in let! h3 := bin Or h3 g3 in
  let! h4 := bin And h4 mask in let! h4 := bin Or h4 g4 in
  let! t := un (Shl 26) h1 in let! h0 := bin Or h0 t in
  let! u := un (Shr 6) h1 in let! t := un (Shl 20) h2 in let! h1 := bin Or u t in
  let! u := un (Shr 12) h2 in let! t := un (Shl 14) h3 in let! h2 := bin Or u t in
  let! u := un (Shr 18) h3 in let! t := un (Shl 8) h4 in let! h3 := bin Or u t in
  let! k := load (tppad p) 0 in let! f := checked m (Add 64) h0 k in let! h0 := un (Low 32) f in
  let! k := load (tppad p) 1 in let! f1 := checked m (Add 64) h1 k in let! t := un (Shr 32) f in let! f := checked m (Add 64) f1 t in
  let! h1 := un (Low 32) f in
  let! k := load (tppad p) 2 in let! f1 := checked m (Add 64) h2 k in let! t := un (Shr 32) f in let! f := checked m (Add 64) f1 t in
  let! h2 := un (Low 32) f in
  let! k := load (tppad p) 3 in let! f1 := checked m (Add 64) h3 k in let! t := un (Shr 32) f in let! f := checked m (Add 64) f1 t in
  let! h3 := un (Low 32) f in
  t_write_u32 false [h0; h1; h2; h3].
(** poly1305.rs:212-221: one turn of the loop; the block that is not full is padded with a one and zeros *)
Definition t_poly_block (m : mode) (p : tpoly) (b : list W) : prog W tpoly :=
  if Nat.eqb (length b) 16 then t_compute_block m p b false
  else let! tail := consts (1 :: repeat 0 (15 - length b)) in t_compute_block m p (b ++ tail) true.
(** poly1305.rs:209-224 [authenticate] *)
Definition t_authenticate (m : mode) (msg r s : list W) : prog W (list W) :=
  let! p := t_poly_new r s in
  let! p := foldp (t_poly_block m) (chunks 16 msg) p in
  t_finalize m p.

(** ** src/cipher/chacha20_poly1305.rs *)
(** chacha20_poly1305.rs:26-29, 31-34: how many zeros are added after [n] bytes *)
Definition pad_count (n : nat) : nat := let padding_len := (16 - n mod 16)%nat in if Nat.eqb padding_len 16 then 0%nat else padding_len.
(** chacha20_poly1305.rs:21-44 [compute_mac] *)
Definition t_compute_mac (m : mode) (poly_key encrypted ad : list W) : prog W (list W) :=
  let! p1 := consts (repeat 0 (pad_count (length ad))) in
  let! p2 := consts (repeat 0 (pad_count (length encrypted))) in
  let! l1 := consts (map b2z (le 8 (zlen ad))) in
  let! l2 := consts (map b2z (le 8 (zlen encrypted))) in
  t_authenticate m (ad ++ p1 ++ encrypted ++ p2 ++ l1 ++ l2) (firstn (16 - 0) (skipn 0 poly_key)) (firstn (32 - 16) (skipn 16 poly_key)).
(** chacha20_poly1305.rs:51-60 [encrypt] *)
Definition t_seal (m : mode) (key nonce data ad : list W) : prog W (list W) :=
  let! chacha20 := t_chacha_new key nonce in
  let! (poly_key, chacha20) := t_chacha_next m chacha20 in
  let! (encrypted, _) := t_chacha_encrypt m chacha20 data in
  let! mac := t_compute_mac m poly_key encrypted ad in
  Ret (encrypted ++ mac).
(** chacha20_poly1305.rs:74-89: [decrypt] up to the test of [diff] *)
Definition t_open_body (m : mode) (key nonce data ad : list W) : prog W (list W * W) :=
  let encrypted := firstn (length data - MAC_LEN) data in
  let mac_expected := skipn (length data - MAC_LEN) data in
  let! chacha20 := t_chacha_new key nonce in
  let! (poly_key, chacha20) := t_chacha_next m chacha20 in
  let! mac_computed := t_compute_mac m poly_key encrypted ad in
  let! (plain, _) := t_chacha_encrypt m chacha20 encrypted in
  let! diff := const 0 in
  let! diff := foldp (fun diff i =>
    let! x := load mac_computed i in let! y := load mac_expected i in let! e := bin Xor x y in bin Or diff e) (seq 0 MAC_LEN) diff in
  Ret (plain, diff).
(** chacha20_poly1305.rs:68-96 [decrypt]; [None] is the error [BadRecordMac] *)
Definition t_open (m : mode) (key nonce data ad : list W) : prog W (option (list W)) :=
  if (length data <? MAC_LEN)%nat then Ret None
  else
    let! (plain, diff) := t_open_body m key nonce data ad in
    let! ok := jump 0 diff in
    if ok then Ret (Some plain) else Ret None.

(** ** src/crypto/sha2.rs *)
(** sha2.rs:51-59: one step of the schedule loop *)
Definition t_sched_step (w : list W) (j : nat) : prog W (list W) :=
  let! x := load w (j - 15) in
  let! a := un (Rotr 7) x in let! b := un (Rotr 18) x in let! a := bin Xor a b in let! b := un (Shr 3) x in let! sig0 := bin Xor a b in
  let! x := load w (j - 2) in
  let! a := un (Rotr 17) x in let! b := un (Rotr 19) x in let! a := bin Xor a b in let! b := un (Shr 10) x in let! sig1 := bin Xor a b in
  let! s := bin (Add 32) sig0 sig1 in
  let! x := load w (j - 7) in let! s := bin (Add 32) s x in
  let! x := load w (j - 16) in let! s := bin (Add 32) s x in
  store j s w.
(** sha2.rs:64-71: the eight working variables *)
Record tvars := TVars { ta : W; tb : W; tc : W; td : W; te : W; tf : W; tg : W; th : W }.
(** sha2.rs:73-93: one round *)
Definition t_sha_round (w : list W) (s : tvars) (j : nat) : prog W tvars :=
  let '(TVars a b c d e f g h) := s in
  let! x := bin And e f in let! y := un Not e in let! y := bin And y g in let! ch := bin Xor x y in
  let! x := bin And a b in let! y := bin And a c in let! x := bin Xor x y in let! y := bin And b c in let! maj := bin Xor x y in
  let! x := un (Rotr 2) a in let! y := un (Rotr 13) a in let! x := bin Xor x y in let! y := un (Rotr 22) a in let! sig0 := bin Xor x y in
  let! x := un (Rotr 6) e in let! y := un (Rotr 11) e in let! x := bin Xor x y in let! y := un (Rotr 25) e in let! sig1 := bin Xor x y in
  let! x := bin (Add 32) h sig1 in let! x := bin (Add 32) x ch in
  let! k := const (at_ K256 j) in let! x := bin (Add 32) x k in
  let! y := load w j in let! t1 := bin (Add 32) x y in
  let! t2 := bin (Add 32) sig0 maj in
  let! e' := bin (Add 32) d t1 in
  let! a' := bin (Add 32) t1 t2 in
  Ret (TVars a' a b c e' e f g).
(** sha2.rs:46-103: one block *)
Definition t_sha_block (val : list W) (block : list W) : prog W (list W) :=
  let! w := t_read_u32 true block in
  let! z := consts (repeat 0 48) in
  let! w := foldp t_sched_step (seq 16 48) (w ++ z) in
  let! a := load val 0 in let! b := load val 1 in let! c := load val 2 in let! d := load val 3 in
  let! e := load val 4 in let! f := load val 5 in let! g := load val 6 in let! h := load val 7 in
  let! s := foldp (t_sha_round w) (seq 0 64) (TVars a b c d e f g h) in
  let! x := load val 0 in let! v0 := bin (Add 32) x (ta s) in
  let! x := load val 1 in let! v1 := bin (Add 32) x (tb s) in
  let! x := load val 2 in let! v2 := bin (Add 32) x (tc s) in
  let! x := load val 3 in let! v3 := bin (Add 32) x (td s) in
  let! x := load val 4 in let! v4 := bin (Add 32) x (te s) in
  let! x := load val 5 in let! v5 := bin (Add 32) x (tf s) in
  let! x := load val 6 in let! v6 := bin (Add 32) x (tg s) in
  let! x := load val 7 in let! v7 := bin (Add 32) x (th s) in
  Ret [v0; v1; v2; v3; v4; v5; v6; v7].
(** sha2.rs:25-40: the padding, which depends on the length only; the length does not fit in debug builds from 2^61 bytes on *)
Definition t_sha_padding (m : mode) (len : Z) : prog W (list W) :=
  match ck m 64 (len * 8) with
  | Ok bitlen => consts (128 :: repeat 0 (Z.to_nat (Z.land ((64 - 8 - 1 - len) mod 2 ^ 64) 63))
                   ++ map (fun i => b2z (z2b (Z.shiftr bitlen (8 * i)))) [7; 6; 5; 4; 3; 2; 1; 0])
  | _ => Fail
  end.
(** sha2.rs:24-108 [sha256] *)
Definition t_sha256 (m : mode) (msg : list W) : prog W (list W) :=
  let! tail := t_sha_padding m (zlen msg) in
  let padded := msg ++ tail in
  let! _ := match m with Debug => if zlen padded mod 64 =? 0 then Ret tt else Fail | Release => Ret tt end in
  let! val := consts INIT_VECTOR in
  let! val := foldp t_sha_block (chunks 64 padded) val in
  t_write_u32 true val.
(** src/cipher/prf.rs:18-22: [msg[i] ^= key[i]] *)
Fixpoint t_xor_into (a b : list W) : prog W (list W) :=
  match a, b with
  | x :: a', y :: b' => let! z := bin Xor x y in let! r := t_xor_into a' b' in Ret (z :: r)
  | _, _ => Ret a
  end.
(** src/cipher/prf.rs:8-28 [hmac_sha256] *)
Definition t_hmac (m : mode) (key msg : list W) : prog W (list W) :=
  if (64 <? length key)%nat then Fail
  else
    let! i_msg := consts (repeat 0x36 64) in
    let! o_msg := consts (repeat 0x5c 64) in
    let! i_msg := t_xor_into i_msg key in
    let! o_msg := t_xor_into o_msg key in
    let! h_i := t_sha256 m (i_msg ++ msg) in
    t_sha256 m (o_msg ++ h_i).
(** src/cipher/prf.rs:30-35 *)
Record tprf := TPrf { tsecret : list W; tseed : list W; tpa : list W; tbuf : list W }.
(** src/cipher/prf.rs:38-47 *)
Definition t_prf_new (m : mode) (secret seed : list W) : prog W tprf :=
  let! a1 := t_hmac m secret seed in Ret (TPrf secret seed a1 []).
(** src/cipher/prf.rs:50-57 *)
Definition t_next_block (m : mode) (p : tprf) : prog W (list W * tprf) :=
  let! next := t_hmac m (tsecret p) (tpa p ++ tseed p) in
  let! a := t_hmac m (tsecret p) (tpa p) in
  Ret (next, TPrf (tsecret p) (tseed p) a (tbuf p)).
(** src/cipher/prf.rs:76-86: the [while] loop with [step] for [next_block]; all conditions are about lengths *)
Fixpoint t_get_loop (step : tprf -> prog W (list W * tprf)) (fuel : nat) (size : nat) (ret : list W) (p : tprf) : prog W (list W * tprf) :=
  if (length ret <? size)%nat then
    match fuel with
    | O => Fail
    | S f =>
        let! (nb, p) := step p in
        let slice_len := (size - length ret)%nat in
        if (32 <? slice_len)%nat then t_get_loop step f size (ret ++ nb) p
        else Copy 0 slice_len (Copy slice_len 32 (Ret (ret ++ firstn slice_len nb, TPrf (tsecret p) (tseed p) (tpa p) (skipn slice_len nb))))
    end
  else Ret (ret, p).
(** src/cipher/prf.rs:59-89 [get_bytes] *)
Definition t_get_bytes (m : mode) (size : nat) (p : tprf) : prog W (list W * tprf) :=
  let buf := tbuf p in
  if (0 <? length buf)%nat then
    if (length buf <=? size)%nat then
      t_get_loop (t_next_block m) size size buf (TPrf (tsecret p) (tseed p) (tpa p) [])
    else Copy size (length buf) (Ret (firstn size buf, TPrf (tsecret p) (tseed p) (tpa p) (skipn size buf)))
  else t_get_loop (t_next_block m) size size [] p.

(** several requests in a row, as src/client.rs:161-171 makes them for the key block *)
Fixpoint t_requests (get : nat -> tprf -> prog W (list W * tprf)) (sizes : list nat) (p : tprf) : prog W (list (list W) * tprf) :=
  match sizes with
  | [] => Ret ([], p)
  | k :: ks => let! (out, p) := get k p in let! (outs, p) := t_requests get ks p in Ret (out :: outs, p)
  end.
(** a new [Prf] and then the requests *)
Definition t_prf (m : mode) (secret seed : list W) (sizes : list nat) : prog W (list (list W) * tprf) :=
  let! p := t_prf_new m secret seed in t_requests (t_get_bytes m) sizes p.

(** src/cipher/ecdhe.rs:141-143: is a drawn scalar kept? *)
Definition t_keep (m : mode) (x : list W) : prog W bool :=
  let! z := const 0 in
  let! xx := t_reduce_once m x z in
  let! x_is_okay := t_compare xx x in
  jump 0 x_is_okay.
(** src/cipher/ecdhe.rs:135-147 [get_random_x]: the loop over the scalars that the random number generator delivers, with
    [keep] for the test; running out of them is the failure of the generator *)
Fixpoint t_draws (keep : list W -> prog W bool) (draws : list (list W)) : prog W (list W) :=
  match draws with
  | [] => Fail
  | x :: rest => let! ok := keep x in if ok then Ret x else t_draws keep rest
  end.
End Code2.
Arguments tprf : clear implicits.
Arguments tpoly : clear implicits.
Arguments tvars : clear implicits.
