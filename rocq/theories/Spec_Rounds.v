(** Specification vocabulary for C111: the rounds of ChaCha20 undone, and their symmetry. *)
From Verif Require Export Spec_Crypto.

(** sixteen words *)
Definition sixteen (v : list Z) : Prop := length v = 16%nat /\ Forall is_word v.
Definition sub32 (a b : Z) : Z := (a - b) mod 2 ^ 32.
(** the steps of a quarter round taken back, the last one first *)
Definition UNQUARTER (t : Z * Z * Z * Z) : Z * Z * Z * Z :=
  let '(a, b, c, d) := t in
  let b := Z.lxor (ror b 7) c in let c := sub32 c d in
  let d := Z.lxor (ror d 8) a in let a := sub32 a b in
  let b := Z.lxor (ror b 12) c in let c := sub32 c d in
  let d := Z.lxor (ror d 16) a in let a := sub32 a b in
  (a, b, c, d).
(** the diagonals taken back, then the columns *)
Definition un_double (v : list Z) : list Z :=
  match v with
  | [w0; w1; w2; w3; w4; w5; w6; w7; w8; w9; w10; w11; w12; w13; w14; w15] =>
      let '(w3, w4, w9, w14) := UNQUARTER (w3, w4, w9, w14) in
      let '(w2, w7, w8, w13) := UNQUARTER (w2, w7, w8, w13) in
      let '(w1, w6, w11, w12) := UNQUARTER (w1, w6, w11, w12) in
      let '(w0, w5, w10, w15) := UNQUARTER (w0, w5, w10, w15) in
      let '(w3, w7, w11, w15) := UNQUARTER (w3, w7, w11, w15) in
      let '(w2, w6, w10, w14) := UNQUARTER (w2, w6, w10, w14) in
      let '(w1, w5, w9, w13) := UNQUARTER (w1, w5, w9, w13) in
      let '(w0, w4, w8, w12) := UNQUARTER (w0, w4, w8, w12) in
      [w0; w1; w2; w3; w4; w5; w6; w7; w8; w9; w10; w11; w12; w13; w14; w15]
  | _ => v
  end.
(** the state with the block count [n] *)
Definition with_count (n : Z) (v : list Z) : list Z := firstn 12 v ++ [n] ++ skipn 13 v.
(** the four columns of the state moved round by one *)
Definition turned (v : list Z) : list Z := map (fun i => nth (4 * (i / 4) + (i + 1) mod 4) v 0) (seq 0 16).
