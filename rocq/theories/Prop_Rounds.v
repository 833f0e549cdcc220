(** C111: the rounds of ChaCha20 are a permutation of the states, and what that says of the blocks. *)
From Verif Require Import Spec_Rounds M_Chacha20 P_Rounds P_Rounds2.
From Coq Require Import ZifyBool ZifyNat ZifyN.
Local Open Scope list_scope.
Local Open Scope Z_scope.

(** ** C111 *)
(** one turn of the loop is a permutation of the states of sixteen words, and [un_double] takes it back *)
Theorem C111_round : forall v, sixteen v ->
  sixteen (double_round v) /\ un_double (double_round v) = v /\ sixteen (un_double v) /\ double_round (un_double v) = v.
Proof. exact round_permutation. Qed.
Print Assumptions C111_round.
(** so are the ten turns: without the sum at the end the key could be read off a block *)
Theorem C111_rounds : forall v, sixteen v -> sixteen (Nat.iter 10 double_round v) /\ Nat.iter 10 un_double (Nat.iter 10 double_round v) = v /\
  sixteen (Nat.iter 10 un_double v) /\ Nat.iter 10 double_round (Nat.iter 10 un_double v) = v.
Proof. exact rounds_permutation. Qed.
Print Assumptions C111_rounds.
(** different keys, nonces or counts have different states after the rounds *)
Theorem C111_states : forall key nonce n v key' nonce' n' v', chacha_new key nonce = Ok v -> chacha_new key' nonce' = Ok v' -> is_word n -> is_word n' ->
  Nat.iter 10 double_round (with_count n v) = Nat.iter 10 double_round (with_count n' v') -> key = key' /\ nonce = nonce' /\ n = n'.
Proof. exact states_apart. Qed.
Print Assumptions C111_states.
(** two equal blocks under one key: their states after the rounds agree in the twelve words of constants and key and differ in the four of count and nonce *)
Theorem C111_blocks : forall m key nonce n v s m' nonce' n' v' s' b, chacha_new key nonce = Ok v -> chacha_new key nonce' = Ok v' -> is_word n -> is_word n' -> (nonce, n) <> (nonce', n') ->
  chacha_next m (with_count n v) = Ok (b, s) -> chacha_next m' (with_count n' v') = Ok (b, s') ->
  let c := Nat.iter 10 double_round (with_count n v) in let c' := Nat.iter 10 double_round (with_count n' v') in
  (forall i, (i < 12)%nat -> nth i c 0 = nth i c' 0) /\ (exists i, (12 <= i < 16)%nat /\ nth i c 0 <> nth i c' 0).
Proof. exact equal_next. Qed.
Print Assumptions C111_blocks.
(** the rounds do not tell the columns apart: a state with the columns moved round gives the block with the columns moved round *)
Theorem C111_turned : forall v, length v = 16%nat -> double_round (turned v) = turned (double_round v) /\ round20 (turned v) = turned (round20 v).
Proof. exact turned_both. Qed.
Print Assumptions C111_turned.
(** the constants do: no state of the cipher is another one with the columns moved round *)
Theorem C111_constants : forall key nonce n v key' nonce' n' v' k, chacha_new key nonce = Ok v -> chacha_new key' nonce' = Ok v' -> is_word n -> is_word n' -> (0 < k < 4)%nat ->
  with_count n' v' <> Nat.iter k turned (with_count n v).
Proof. exact constants_unturned. Qed.
Print Assumptions C111_constants.
(** "the block always differs from the state it is made of" is false of states in general: zeros stay zeros *)
Theorem C111_moves_refuted : exists v, sixteen v /\ round20 v = v.
Proof. exact zero_stays. Qed.
Print Assumptions C111_moves_refuted.
(** they are the only state which does: no state of the cipher is its own block *)
Theorem C111_only_zero : forall v, sixteen v -> (round20 v = v <-> v = repeat 0 16).
Proof. exact only_zero. Qed.
Print Assumptions C111_only_zero.
Theorem C111_moves : forall key nonce n v, chacha_new key nonce = Ok v -> is_word n -> round20 (with_count n v) <> with_count n v.
Proof. exact no_own_block. Qed.
Print Assumptions C111_moves.
(** the vector of RFC 7539, 2.1.1, there and back *)
Example ex_vector : UNQUARTER (0xea2a92f4, 0xcb1cf8ce, 0x4581472e, 0x5881c4bb) = (0x11111111, 0x01020304, 0x9b8d6f43, 0x01234567) /\
  QUARTERROUND (0x11111111, 0x01020304, 0x9b8d6f43, 0x01234567) = (0xea2a92f4, 0xcb1cf8ce, 0x4581472e, 0x5881c4bb).
Proof. split; vm_compute; reflexivity. Qed.
(** a state of the cipher is sixteen words, and the columns of it moved round are another list *)
Example ex_state : exists v, chacha_new (repeat x01 32) (repeat x02 12) = Ok v /\ sixteen (with_count 1 v) /\ turned (with_count 1 v) <> with_count 1 v /\ double_round (with_count 1 v) <> with_count 1 v.
Proof.
  eexists. split; [vm_compute; reflexivity|].
  split; [eapply at_sixteen, (new_at (repeat x01 32) (repeat x02 12) 1); [vm_compute; reflexivity|unfold is_word; lia]|].
  split; intros H; apply (f_equal (fun l => nth 0 l 0)) in H; vm_compute in H; discriminate H.
Qed.
