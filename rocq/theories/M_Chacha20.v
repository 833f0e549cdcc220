(** Model of src/crypto/chacha20.rs. *)
From Verif Require Export M_Word.

(** src/crypto/chacha20.rs:11-30 [ChaCha20::new]: the sixteen words *)
Definition chacha_new (key nonce : bytes) : res (list Z) :=
  if negb (Nat.eqb (length key) 32) then Panic
  else if negb (Nat.eqb (length nonce) 12) then Panic
  else Ok ([0x61707865; 0x3320646e; 0x79622d32; 0x6b206574] ++ read_u32_le key ++ [0] ++ read_u32_le nonce).

(** src/crypto/chacha20.rs:33-57 [quarter_round_idx!] *)
Definition quarter_round (e : list Z) (a b c d : nat) : list Z :=
  let e := upd a (wadd (at_ e a) (at_ e b)) e in
  let e := upd d (Z.lxor (at_ e d) (at_ e a)) e in
  let e := upd d (rotate_left (at_ e d) 16) e in
  let e := upd c (wadd (at_ e c) (at_ e d)) e in
  let e := upd b (Z.lxor (at_ e b) (at_ e c)) e in
  let e := upd b (rotate_left (at_ e b) 12) e in
  let e := upd a (wadd (at_ e a) (at_ e b)) e in
  let e := upd d (Z.lxor (at_ e d) (at_ e a)) e in
  let e := upd d (rotate_left (at_ e d) 8) e in
  let e := upd c (wadd (at_ e c) (at_ e d)) e in
  let e := upd b (Z.lxor (at_ e b) (at_ e c)) e in
  upd b (rotate_left (at_ e b) 7) e.

(** src/crypto/chacha20.rs:60-72: one iteration of the loop *)
Definition double_round (v : list Z) : list Z :=
  let v := quarter_round v 0 4 8 12 in
  let v := quarter_round v 1 5 9 13 in
  let v := quarter_round v 2 6 10 14 in
  let v := quarter_round v 3 7 11 15 in
  let v := quarter_round v 0 5 10 15 in
  let v := quarter_round v 1 6 11 12 in
  let v := quarter_round v 2 7 8 13 in
  quarter_round v 3 4 9 14.

(** src/crypto/chacha20.rs:32-79 [round20] *)
Definition round20 (vals : list Z) : list Z :=
  let v := Nat.iter 10 double_round vals in
  map (fun i => wadd (at_ v i) (at_ vals i)) (seq 0 16).

(** src/crypto/chacha20.rs:81-91 [next]; [self.vals[12] += 1] is checked arithmetic *)
Definition chacha_next (m : mode) (vals : list Z) : res (bytes * list Z) :=
  let nxt := round20 vals in
  let* c := ck m 32 (at_ vals 12 + 1) in
  Ok (write_u32_le nxt, upd 12 c vals).

(** src/crypto/chacha20.rs:99-109 [encrypt] over the chunks of [data] *)
Fixpoint chacha_chunks (m : mode) (vals : list Z) (cs : list bytes) : res (bytes * list Z) :=
  match cs with
  | [] => Ok ([], vals)
  | c :: cs' =>
      let* (nxt, vals) := chacha_next m vals in
      let* (rest, vals) := chacha_chunks m vals cs' in
      Ok (xor_zip nxt c ++ rest, vals)
  end.
(** src/crypto/chacha20.rs:99-109 [encrypt] *)
Definition chacha_encrypt (m : mode) (vals : list Z) (data : bytes) : res (bytes * list Z) :=
  chacha_chunks m vals (chunks 64 data).
