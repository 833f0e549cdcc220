(** Model of src/crypto/poly1305.rs.  [+], [*] on [u32]/[u64] are checked ([ck]); [<<], [>>], [&], [|], [as]
    are the bit operations. *)
From Verif Require Export M_Word.

(** src/crypto/poly1305.rs:8-12 *)
Record poly := Poly { pr : list Z; ph : list Z; ppad : list Z }.

(** [&bs[i..j]], src/crypto/poly1305.rs:18-22, 49-53 *)
Definition slice (bs : bytes) (i j : nat) : bytes := firstn (j - i) (skipn i bs).
(** [u32::from_le_bytes(bs[i..j])], src/crypto/poly1305.rs:18-22, 49-53 *)
Definition le32 (bs : bytes) (i j : nat) : Z := le_val (slice bs i j).

(** src/crypto/poly1305.rs:15-27 [new] *)
Definition poly_new (r s : bytes) : poly :=
  Poly [Z.land (le32 r 0 4) 0x3ffffff;
        Z.land (wshr (le32 r 3 7) 2) 0x3ffff03;
        Z.land (wshr (le32 r 6 10) 4) 0x3ffc0ff;
        Z.land (wshr (le32 r 9 13) 6) 0x3f03fff;
        Z.land (wshr (le32 r 12 16) 8) 0x00fffff]
       [0; 0; 0; 0; 0]
       (read_u32_le s).

(** [u32 * u32], src/crypto/poly1305.rs:37-40, 106, 143 *)
Definition mul32 (m : mode) (a b : Z) := ck m 32 (a * b).
(** [u32 + u32], src/crypto/poly1305.rs:49-53, 106-110, 131-147 *)
Definition add32 (m : mode) (a b : Z) := ck m 32 (a + b).
(** [u64 * u64], src/crypto/poly1305.rs:56-84 *)
Definition mul64 (m : mode) (a b : Z) := ck m 64 (a * b).
(** [u64 + u64], src/crypto/poly1305.rs:56-102, 190-199 *)
Definition add64 (m : mode) (a b : Z) := ck m 64 (a + b).

(** src/crypto/poly1305.rs:56-84: [a0*b0 + a1*b1 + a2*b2 + a3*b3 + a4*b4] on [u64] *)
Definition dot5 (m : mode) (a0 b0 a1 b1 a2 b2 a3 b3 a4 b4 : Z) : res Z :=
  let* p0 := mul64 m a0 b0 in
  let* p1 := mul64 m a1 b1 in
  let* x := add64 m p0 p1 in
  let* p2 := mul64 m a2 b2 in
  let* x := add64 m x p2 in
  let* p3 := mul64 m a3 b3 in
  let* x := add64 m x p3 in
  let* p4 := mul64 m a4 b4 in
  add64 m x p4.

(** src/crypto/poly1305.rs:28-117 [compute_block] *)
Definition compute_block (m : mode) (p : poly) (block : bytes) (partial : bool) : res poly :=
  let hibit := if partial then 0 else 2 ^ 24 in
  let r0 := at_ (pr p) 0 in let r1 := at_ (pr p) 1 in let r2 := at_ (pr p) 2 in
  let r3 := at_ (pr p) 3 in let r4 := at_ (pr p) 4 in
  let* s1 := mul32 m r1 5 in
  let* s2 := mul32 m r2 5 in
  let* s3 := mul32 m r3 5 in
  let* s4 := mul32 m r4 5 in
  let* h0 := add32 m (at_ (ph p) 0) (Z.land (le32 block 0 4) 0x3ffffff) in
  let* h1 := add32 m (at_ (ph p) 1) (Z.land (wshr (le32 block 3 7) 2) 0x3ffffff) in
  let* h2 := add32 m (at_ (ph p) 2) (Z.land (wshr (le32 block 6 10) 4) 0x3ffffff) in
  let* h3 := add32 m (at_ (ph p) 3) (Z.land (wshr (le32 block 9 13) 6) 0x3ffffff) in
  let* h4 := add32 m (at_ (ph p) 4) (Z.lor (wshr (le32 block 12 16) 8) hibit) in
  let* d0 := dot5 m h0 r0 h1 s4 h2 s3 h3 s2 h4 s1 in
  let* d1 := dot5 m h0 r1 h1 r0 h2 s4 h3 s3 h4 s2 in
  let* d2 := dot5 m h0 r2 h1 r1 h2 r0 h3 s4 h4 s3 in
  let* d3 := dot5 m h0 r3 h1 r2 h2 r1 h3 r0 h4 s4 in
  let* d4 := dot5 m h0 r4 h1 r3 h2 r2 h3 r1 h4 r0 in
  let c := as_u32 (Z.shiftr d0 26) in
  let h0 := Z.land (as_u32 d0) 0x3ffffff in
  let* d1 := add64 m d1 c in
  let c := as_u32 (Z.shiftr d1 26) in
  let h1 := Z.land (as_u32 d1) 0x3ffffff in
  let* d2 := add64 m d2 c in
  let c := as_u32 (Z.shiftr d2 26) in
  let h2 := Z.land (as_u32 d2) 0x3ffffff in
  let* d3 := add64 m d3 c in
  let c := as_u32 (Z.shiftr d3 26) in
  let h3 := Z.land (as_u32 d3) 0x3ffffff in
  let* d4 := add64 m d4 c in
  let c := as_u32 (Z.shiftr d4 26) in
  let h4 := Z.land (as_u32 d4) 0x3ffffff in
  let* c5 := mul32 m c 5 in
  let* h0 := add32 m h0 c5 in
  let c := wshr h0 26 in
  let h0 := Z.land h0 0x3ffffff in
  let* h1 := add32 m h1 c in
  Ok (Poly (pr p) [h0; h1; h2; h3; h4] (ppad p)).

(** src/crypto/poly1305.rs:120-206 [finalize] *)
Definition finalize (m : mode) (p : poly) : res bytes :=
  let h0 := at_ (ph p) 0 in let h1 := at_ (ph p) 1 in let h2 := at_ (ph p) 2 in
  let h3 := at_ (ph p) 3 in let h4 := at_ (ph p) 4 in
  let c := wshr h1 26 in let h1 := Z.land h1 0x3ffffff in
  let* h2 := add32 m h2 c in
  let c := wshr h2 26 in let h2 := Z.land h2 0x3ffffff in
  let* h3 := add32 m h3 c in
  let c := wshr h3 26 in let h3 := Z.land h3 0x3ffffff in
  let* h4 := add32 m h4 c in
  let c := wshr h4 26 in let h4 := Z.land h4 0x3ffffff in
  let* c5 := mul32 m c 5 in
  let* h0 := add32 m h0 c5 in
  let c := wshr h0 26 in let h0 := Z.land h0 0x3ffffff in
  let* h1 := add32 m h1 c in
  let g0 := wadd h0 5 in let c := wshr g0 26 in let g0 := Z.land g0 0x3ffffff in
  let g1 := wadd h1 c in let c := wshr g1 26 in let g1 := Z.land g1 0x3ffffff in
  let g2 := wadd h2 c in let c := wshr g2 26 in let g2 := Z.land g2 0x3ffffff in
  let g3 := wadd h3 c in let c := wshr g3 26 in let g3 := Z.land g3 0x3ffffff in
  let g4 := as_u32 (wadd h4 c - 2 ^ 26) in
  let mask := as_u32 (wshr g4 31 - 1) in
  let g0 := Z.land g0 mask in let g1 := Z.land g1 mask in let g2 := Z.land g2 mask in
  let g3 := Z.land g3 mask in let g4 := Z.land g4 mask in
  let mask := wnot mask in
  let h0 := Z.lor (Z.land h0 mask) g0 in
  let h1 := Z.lor (Z.land h1 mask) g1 in
  let h2 := Z.lor (Z.land h2 mask) g2 in
  let h3 := Z.lor (Z.land h3 mask) g3 in
  let h4 := Z.lor (Z.land h4 mask) g4 in
  let h0 := Z.lor h0 (wshl h1 26) in
  let h1 := Z.lor (wshr h1 6) (wshl h2 20) in
  let h2 := Z.lor (wshr h2 12) (wshl h3 14) in
  let h3 := Z.lor (wshr h3 18) (wshl h4 8) in
  let* f := add64 m h0 (at_ (ppad p) 0) in
  let h0 := as_u32 f in
  let* f1 := add64 m h1 (at_ (ppad p) 1) in
  let* f := add64 m f1 (Z.shiftr f 32) in
  let h1 := as_u32 f in
  let* f1 := add64 m h2 (at_ (ppad p) 2) in
  let* f := add64 m f1 (Z.shiftr f 32) in
  let h2 := as_u32 f in
  let* f1 := add64 m h3 (at_ (ppad p) 3) in
  let* f := add64 m f1 (Z.shiftr f 32) in
  let h3 := as_u32 f in
  Ok (le 4 h0 ++ le 4 h1 ++ le 4 h2 ++ le 4 h3).

(** src/crypto/poly1305.rs:212-221: the loop over the blocks *)
Fixpoint poly_blocks (m : mode) (p : poly) (bs : list bytes) : res poly :=
  match bs with
  | [] => Ok p
  | b :: bs' =>
      let* p := if Nat.eqb (length b) 16 then compute_block m p b false
                else compute_block m p (b ++ [x01] ++ zeros (15 - length b)) true in
      poly_blocks m p bs'
  end.

(** src/crypto/poly1305.rs:209-224 [authenticate] *)
Definition authenticate (m : mode) (msg r s : bytes) : res bytes :=
  let* p := poly_blocks m (poly_new r s) (chunks 16 msg) in
  finalize m p.
