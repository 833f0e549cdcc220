(** 32-bit machine words as used by src/crypto: integers in [0, 2^32). *)
From Verif Require Export Base.

(** [u32::wrapping_add], [Wrapping<u32> + Wrapping<u32>]: src/crypto/sha2.rs:57-102, chacha20.rs:34-77, poly1305.rs:150-166 *)
Definition wadd (a b : Z) : Z := (a + b) mod 2 ^ 32.
(** [x as u32], src/crypto/poly1305.rs:88-105, 191-200 *)
Definition as_u32 (x : Z) : Z := x mod 2 ^ 32.
(** [u32 << n] for 0 < n < 32, src/crypto/poly1305.rs:183-186 *)
Definition wshl (x n : Z) : Z := as_u32 (Z.shiftl x n).
(** [u32 >> n] for 0 < n < 32, src/crypto/sha2.rs:53-56, poly1305.rs:19-53, 108-186 *)
Definition wshr (x n : Z) : Z := Z.shiftr x n.
(** [u32::rotate_left], src/crypto/chacha20.rs:37-49 *)
Definition rotate_left (x n : Z) : Z := Z.lor (wshl x n) (wshr x (32 - n)).
(** [u32::rotate_right], src/crypto/sha2.rs:53-78 *)
Definition rotate_right (x n : Z) : Z := Z.lor (wshr x n) (wshl x (32 - n)).
(** [!x] on [u32], src/crypto/sha2.rs:74, poly1305.rs:175 *)
Definition wnot (x : Z) : Z := Z.lxor x (2 ^ 32 - 1).

(** [LittleEndian::read_u32_into], used at src/crypto/chacha20.rs:23-27, poly1305.rs:24 *)
Definition read_u32_le (bs : bytes) : list Z := map le_val (chunks 4 bs).
(** [BigEndian::read_u32_into], used at src/crypto/sha2.rs:49 *)
Definition read_u32_be (bs : bytes) : list Z := map be_val (chunks 4 bs).
(** [LittleEndian::write_u32_into], used at src/crypto/chacha20.rs:88 *)
Definition write_u32_le (ws : list Z) : bytes := concat (map (le 4) ws).
(** [BigEndian::write_u32_into], used at src/crypto/sha2.rs:106 *)
Definition write_u32_be (ws : list Z) : bytes := concat (map (be 4) ws).

(** array access (src/crypto/sha2.rs:51-102, chacha20.rs:54-76, poly1305.rs:18-199); indices in the code are constants or loop counters within bounds *)
Definition at_ (l : list Z) (i : nat) : Z := nth i l 0.
