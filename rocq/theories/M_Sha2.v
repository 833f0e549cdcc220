(** Model of src/crypto/sha2.rs. *)
From Verif Require Export M_Word.

(** src/crypto/sha2.rs:9-18 [K] *)
Definition K256 : list Z := [
  0x428a2f98; 0x71374491; 0xb5c0fbcf; 0xe9b5dba5; 0x3956c25b; 0x59f111f1; 0x923f82a4; 0xab1c5ed5;
  0xd807aa98; 0x12835b01; 0x243185be; 0x550c7dc3; 0x72be5d74; 0x80deb1fe; 0x9bdc06a7; 0xc19bf174;
  0xe49b69c1; 0xefbe4786; 0x0fc19dc6; 0x240ca1cc; 0x2de92c6f; 0x4a7484aa; 0x5cb0a9dc; 0x76f988da;
  0x983e5152; 0xa831c66d; 0xb00327c8; 0xbf597fc7; 0xc6e00bf3; 0xd5a79147; 0x06ca6351; 0x14292967;
  0x27b70a85; 0x2e1b2138; 0x4d2c6dfc; 0x53380d13; 0x650a7354; 0x766a0abb; 0x81c2c92e; 0x92722c85;
  0xa2bfe8a1; 0xa81a664b; 0xc24b8b70; 0xc76c51a3; 0xd192e819; 0xd6990624; 0xf40e3585; 0x106aa070;
  0x19a4c116; 0x1e376c08; 0x2748774c; 0x34b0bcb5; 0x391c0cb3; 0x4ed8aa4a; 0x5b9cca4f; 0x682e6ff3;
  0x748f82ee; 0x78a5636f; 0x84c87814; 0x8cc70208; 0x90befffa; 0xa4506ceb; 0xbef9a3f7; 0xc67178f2].

(** src/crypto/sha2.rs:20-22 [INIT_VECTOR] *)
Definition INIT_VECTOR : list Z := [
  0x6a09e667; 0xbb67ae85; 0x3c6ef372; 0xa54ff53a; 0x510e527f; 0x9b05688c; 0x1f83d9ab; 0x5be0cd19].

(** src/crypto/sha2.rs:25-40: the padded message.  [len as u64 * 8] is checked arithmetic;
    [(55 - len) wrapping & 63] pads; the eight length bytes are [(bitlen >> 8i) as u8] *)
Definition sha_pad (m : mode) (msg : bytes) : res bytes :=
  let len := zlen msg in
  let padding_len := Z.land ((64 - 8 - 1 - len) mod 2 ^ 64) 63 in
  let* bitlen := ck m 64 (len * 8) in
  let lenbytes := map (fun i => z2b (Z.shiftr bitlen (8 * i))) [7; 6; 5; 4; 3; 2; 1; 0] in
  let padded := msg ++ [x80] ++ zeros (Z.to_nat padding_len) ++ lenbytes in
  let* _ := dassert m (zlen padded mod 64 =? 0) in
  Ok padded.

(** src/crypto/sha2.rs:51-59: one step of the schedule loop *)
Definition sched_step (w : list Z) (j : nat) : list Z :=
  let wj15 := at_ w (j - 15) in
  let sig0 := Z.lxor (Z.lxor (rotate_right wj15 7) (rotate_right wj15 18)) (wshr wj15 3) in
  let wj2 := at_ w (j - 2) in
  let sig1 := Z.lxor (Z.lxor (rotate_right wj2 17) (rotate_right wj2 19)) (wshr wj2 10) in
  upd j (wadd (wadd (wadd sig0 sig1) (at_ w (j - 7))) (at_ w (j - 16))) w.
(** src/crypto/sha2.rs:47-62 *)
Definition schedule (block : bytes) : list Z :=
  fold_left sched_step (seq 16 48) (read_u32_be block ++ repeat 0 48).

(** src/crypto/sha2.rs:64-71: the eight working variables *)
Record vars := Vars { va : Z; vb : Z; vc : Z; vd : Z; ve : Z; vf : Z; vg : Z; vh : Z }.
(** src/crypto/sha2.rs:73-93: one round *)
Definition sha_round (w : list Z) (s : vars) (j : nat) : vars :=
  let '(Vars a b c d e f g h) := s in
  let ch := Z.lxor (Z.land e f) (Z.land (wnot e) g) in
  let maj := Z.lxor (Z.lxor (Z.land a b) (Z.land a c)) (Z.land b c) in
  let sig0 := Z.lxor (Z.lxor (rotate_right a 2) (rotate_right a 13)) (rotate_right a 22) in
  let sig1 := Z.lxor (Z.lxor (rotate_right e 6) (rotate_right e 11)) (rotate_right e 25) in
  let t1 := wadd (wadd (wadd (wadd h sig1) ch) (at_ K256 j)) (at_ w j) in
  let t2 := wadd sig0 maj in
  Vars (wadd t1 t2) a b c (wadd d t1) e f g.

(** src/crypto/sha2.rs:46-103: one block *)
Definition sha_block (val : list Z) (block : bytes) : list Z :=
  let w := schedule block in
  let s0 := Vars (at_ val 0) (at_ val 1) (at_ val 2) (at_ val 3) (at_ val 4) (at_ val 5) (at_ val 6) (at_ val 7) in
  let s := fold_left (sha_round w) (seq 0 64) s0 in
  [wadd (at_ val 0) (va s); wadd (at_ val 1) (vb s); wadd (at_ val 2) (vc s); wadd (at_ val 3) (vd s);
   wadd (at_ val 4) (ve s); wadd (at_ val 5) (vf s); wadd (at_ val 6) (vg s); wadd (at_ val 7) (vh s)].

(** src/crypto/sha2.rs:24-108 [sha256]; the loop over [nblk] whole blocks is [chunks 64] of the padded
    message, whose length is a multiple of 64 *)
Definition sha256 (m : mode) (msg : bytes) : res bytes :=
  let* padded := sha_pad m msg in
  Ok (write_u32_be (fold_left sha_block (chunks 64 padded) INIT_VECTOR)).
