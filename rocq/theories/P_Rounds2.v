(** Proofs for C111: what the states of two blocks have to do with one another; the symmetry of the rounds. *)
From Verif Require Export P_Rounds.
From Coq Require Import ZifyBool ZifyNat ZifyN.
Local Open Scope Z_scope.

(** the state of [ChaCha20::new] with a block count *)
Lemma new_at key nonce n v : chacha_new key nonce = Ok v -> is_word n -> chacha_at key nonce n (with_count n v) /\ length key = 32%nat /\ length nonce = 12%nat.
Proof.
  intros H W. assert (L : length key = 32%nat /\ length nonce = 12%nat).
  { unfold chacha_new in H. destruct (Nat.eqb_spec (length key) 32); cbn [negb] in H; [|discriminate H].
    destruct (Nat.eqb_spec (length nonce) 12); cbn [negb] in H; [|discriminate H]. auto. }
  destruct L as (L1 & L2). split; [|auto]. destruct (chacha_new_spec key nonce L1 L2) as (v0 & E & A).
  rewrite E in H. injection H as <-.
  replace (with_count n v0) with (upd 12 n v0); [apply (chacha_at_upd _ _ _ _ _ A); exact W|].
  destruct A as (-> & _). reflexivity.
Qed.
Lemma at_sixteen key nonce n v : chacha_at key nonce n v -> sixteen v.
Proof.
  intros A. pose proof (chacha_at_holds _ _ _ _ A) as (L & E & W). split; [exact L|].
  apply Forall_forall. intros x Hx. destruct (In_nth _ _ 0 Hx) as (i & Hi & <-). rewrite E by lia. apply W. lia.
Qed.
Lemma word_le_eq a b j : word_le a j = word_le b j -> forall k, (k < 4)%nat -> nth (4 * j + k) a x00 = nth (4 * j + k) b x00.
Proof.
  unfold word_le, byte_at. intros H k Hk. apply b2z_inj.
  pose proof (b2z_range (nth (4 * j) a x00)). pose proof (b2z_range (nth (4 * j) b x00)).
  pose proof (b2z_range (nth (4 * j + 1) a x00)). pose proof (b2z_range (nth (4 * j + 1) b x00)).
  pose proof (b2z_range (nth (4 * j + 2) a x00)). pose proof (b2z_range (nth (4 * j + 2) b x00)).
  pose proof (b2z_range (nth (4 * j + 3) a x00)). pose proof (b2z_range (nth (4 * j + 3) b x00)).
  do 4 (destruct k as [|k]; [rewrite ?Nat.add_0_r; lia|]). lia.
Qed.
Lemma words_eq n a b : length a = (4 * n)%nat -> length b = (4 * n)%nat -> (forall j, (j < n)%nat -> word_le a j = word_le b j) -> a = b.
Proof.
  intros La Lb H. apply (list_eq_nth x00); [lia|]. intros i Hi.
  replace i with (4 * (i / 4) + i mod 4)%nat by (symmetry; apply Nat.div_mod; lia).
  apply word_le_eq; [apply H; apply Nat.div_lt_upper_bound; lia|apply Nat.mod_upper_bound; lia].
Qed.
Lemma init_key key n nonce j : (j < 8)%nat -> chacha_init key n nonce (4 + j)%nat = word_le key j.
Proof. intros H. do 8 (destruct j as [|j]; [reflexivity|]). lia. Qed.
Lemma init_nonce key n nonce j : (j < 3)%nat -> chacha_init key n nonce (13 + j)%nat = word_le nonce j.
Proof. intros H. do 3 (destruct j as [|j]; [reflexivity|]). lia. Qed.
Lemma at_nth key nonce n v i : chacha_at key nonce n v -> (i < 16)%nat -> nth i v 0 = chacha_init key n nonce i.
Proof. intros A Hi. pose proof (chacha_at_holds _ _ _ _ A) as (_ & E & _). apply E. exact Hi. Qed.
Lemma at_inj key nonce n key' nonce' n' v : length key = 32%nat -> length nonce = 12%nat -> length key' = 32%nat -> length nonce' = 12%nat ->
  chacha_at key nonce n v -> chacha_at key' nonce' n' v -> key = key' /\ nonce = nonce' /\ n = n'.
Proof.
  intros L1 L2 L3 L4 A A'. split; [|split].
  - apply (words_eq 8); try assumption. intros j Hj. rewrite <- (init_key key n nonce), <- (init_key key' n' nonce') by exact Hj.
    rewrite <- (at_nth _ _ _ _ _ A), <- (at_nth _ _ _ _ _ A') by lia. reflexivity.
  - apply (words_eq 3); try assumption. intros j Hj. rewrite <- (init_nonce key n nonce), <- (init_nonce key' n' nonce') by exact Hj.
    rewrite <- (at_nth _ _ _ _ _ A), <- (at_nth _ _ _ _ _ A') by lia. reflexivity.
  - rewrite <- (chacha_at_12 _ _ _ _ A). apply (chacha_at_12 _ _ _ _ A').
Qed.

Theorem states_apart : forall key nonce n v key' nonce' n' v', chacha_new key nonce = Ok v -> chacha_new key' nonce' = Ok v' -> is_word n -> is_word n' ->
  Nat.iter 10 double_round (with_count n v) = Nat.iter 10 double_round (with_count n' v') -> key = key' /\ nonce = nonce' /\ n = n'.
Proof.
  intros key nonce n v key' nonce' n' v' H H' W W' E.
  destruct (new_at _ _ _ _ H W) as (A & L1 & L2). destruct (new_at _ _ _ _ H' W') as (A' & L3 & L4).
  pose proof (at_sixteen _ _ _ _ A) as S. pose proof (at_sixteen _ _ _ _ A') as S'.
  destruct (rounds_permutation _ S) as (_ & B & _ & _). destruct (rounds_permutation _ S') as (_ & B' & _ & _).
  rewrite E, B' in B. rewrite B in *. exact (at_inj _ _ _ _ _ _ _ L1 L2 L3 L4 A A').
Qed.

(** equal blocks under one key *)
Lemma round20_nth v i : (i < 16)%nat -> nth i (round20 v) 0 = wadd (nth i (Nat.iter 10 double_round v) 0) (nth i v 0).
Proof. intros Hi. unfold round20. rewrite nth_map_seq by exact Hi. reflexivity. Qed.
Lemma wadd_cancel a b c : is_word a -> is_word b -> wadd a c = wadd b c -> a = b.
Proof. unfold is_word, wadd. intros Ha Hb. Z.div_mod_to_equations. lia. Qed.
Lemma sixteen_nth v i : sixteen v -> (i < 16)%nat -> is_word (nth i v 0).
Proof. intros (L & F) Hi. rewrite Forall_forall in F. apply F, nth_In. lia. Qed.

Theorem equal_blocks : forall key nonce n v nonce' n' v', chacha_new key nonce = Ok v -> chacha_new key nonce' = Ok v' -> is_word n -> is_word n' -> (nonce, n) <> (nonce', n') ->
  round20 (with_count n v) = round20 (with_count n' v') ->
  let c := Nat.iter 10 double_round (with_count n v) in let c' := Nat.iter 10 double_round (with_count n' v') in
  (forall i, (i < 12)%nat -> nth i c 0 = nth i c' 0) /\ (exists i, (12 <= i < 16)%nat /\ nth i c 0 <> nth i c' 0).
Proof.
  intros key nonce n v nonce' n' v' H H' W W' D E c c'.
  destruct (new_at _ _ _ _ H W) as (A & L1 & L2). destruct (new_at _ _ _ _ H' W') as (A' & L3 & L4).
  pose proof (at_sixteen _ _ _ _ A) as S. pose proof (at_sixteen _ _ _ _ A') as S'.
  destruct (rounds_permutation _ S) as (B & _). destruct (rounds_permutation _ S') as (B' & _). fold c in B. fold c' in B'.
  assert (F : forall i, (i < 12)%nat -> nth i c 0 = nth i c' 0).
  { intros i Hi. apply (wadd_cancel _ _ (nth i (with_count n v) 0)); [apply sixteen_nth; [exact B|lia]|apply sixteen_nth; [exact B'|lia]|].
    pose proof (f_equal (fun l => nth i l 0) E) as G. cbv beta in G. rewrite !round20_nth in G by lia. fold c c' in G. rewrite G. f_equal.
    rewrite (at_nth _ _ _ _ _ A), (at_nth _ _ _ _ _ A') by lia. do 12 (destruct i as [|i]; [reflexivity|]). lia. }
  split; [exact F|].
  assert (C : forall i, {nth i c 0 = nth i c' 0} + {nth i c 0 <> nth i c' 0}) by (intros; apply Z.eq_dec).
  destruct (C 12%nat) as [E12|N]; [|exists 12%nat; split; [lia|exact N]].
  destruct (C 13%nat) as [E13|N]; [|exists 13%nat; split; [lia|exact N]].
  destruct (C 14%nat) as [E14|N]; [|exists 14%nat; split; [lia|exact N]].
  destruct (C 15%nat) as [E15|N]; [|exists 15%nat; split; [lia|exact N]].
  exfalso. assert (EQ : c = c').
  { apply (list_eq_nth 0); [rewrite (proj1 B), (proj1 B'); reflexivity|]. rewrite (proj1 B). intros i Hi.
    destruct (Nat.lt_ge_cases i 12) as [Hl|Hl]; [apply F; exact Hl|].
    assert (Hc : i = 12%nat \/ i = 13%nat \/ i = 14%nat \/ i = 15%nat) by lia. destruct Hc as [-> | [-> | [-> | -> ]]]; assumption. }
  destruct (states_apart _ _ _ _ _ _ _ _ H H' W W' EQ) as (_ & -> & ->). apply D. reflexivity.
Qed.

(** the symmetry *)
#[local] Opaque qr.
Theorem round_turned : forall v, length v = 16%nat -> double_round (turned v) = turned (double_round v).
Proof.
  intros v H. rewrite (double_dbl v H), double_dbl by reflexivity.
  destruct (list16 v H) as (w0 & w1 & w2 & w3 & w4 & w5 & w6 & w7 & w8 & w9 & w10 & w11 & w12 & w13 & w14 & w15 & ->). clear H.
  assert (T : forall w0 w1 w2 w3 w4 w5 w6 w7 w8 w9 w10 w11 w12 w13 w14 w15, turned [w0; w1; w2; w3; w4; w5; w6; w7; w8; w9; w10; w11; w12; w13; w14; w15] =
    [w1; w2; w3; w0; w5; w6; w7; w4; w9; w10; w11; w8; w13; w14; w15; w12]) by reflexivity.
  rewrite T. unfold dbl.
  destruct (qr (w0, w4, w8, w12)) as [[[a0 b0] c0] d0].
  destruct (qr (w1, w5, w9, w13)) as [[[a1 b1] c1] d1].
  destruct (qr (w2, w6, w10, w14)) as [[[a2 b2] c2] d2].
  destruct (qr (w3, w7, w11, w15)) as [[[a3 b3] c3] d3].
  destruct (qr (a0, b1, c2, d3)) as [[[a4 b4] c4] d4].
  destruct (qr (a1, b2, c3, d0)) as [[[a5 b5] c5] d5].
  destruct (qr (a2, b3, c0, d1)) as [[[a6 b6] c6] d6].
  destruct (qr (a3, b0, c1, d2)) as [[[a7 b7] c7] d7].
  rewrite T. reflexivity.
Qed.
#[local] Transparent qr.
Lemma turned_len v : length (turned v) = 16%nat.
Proof. reflexivity. Qed.
Lemma double_len v : length v = 16%nat -> length (double_round v) = 16%nat.
Proof.
  intros H. rewrite (double_dbl v H).
  destruct (list16 v H) as (w0 & w1 & w2 & w3 & w4 & w5 & w6 & w7 & w8 & w9 & w10 & w11 & w12 & w13 & w14 & w15 & ->). clear H.
  unfold dbl. repeat match goal with |- context [match qr ?t with _ => _ end] => destruct (qr t) as [[[? ?] ?] ?] end. reflexivity.
Qed.
Lemma iter_len k v : length v = 16%nat -> length (Nat.iter k double_round v) = 16%nat.
Proof. intros H. induction k; [exact H|]. cbn [Nat.iter nat_rect]. apply double_len. exact IHk. Qed.
Lemma iter_turned k v : length v = 16%nat -> Nat.iter k double_round (turned v) = turned (Nat.iter k double_round v).
Proof.
  intros H. induction k; [reflexivity|]. change (double_round (Nat.iter k double_round (turned v)) = turned (double_round (Nat.iter k double_round v))).
  rewrite IHk. apply round_turned, iter_len, H.
Qed.
Theorem block_turned : forall v, length v = 16%nat -> round20 (turned v) = turned (round20 v).
Proof.
  intros v H. unfold round20. rewrite (iter_turned 10 v H). pose proof (iter_len 10 v H) as L. set (c := Nat.iter 10 double_round v) in *. clearbody c.
  destruct (list16 v H) as (w0 & w1 & w2 & w3 & w4 & w5 & w6 & w7 & w8 & w9 & w10 & w11 & w12 & w13 & w14 & w15 & ->).
  destruct (list16 c L) as (y0 & y1 & y2 & y3 & y4 & y5 & y6 & y7 & y8 & y9 & y10 & y11 & y12 & y13 & y14 & y15 & ->). reflexivity.
Qed.
Theorem constants_unturned : forall key nonce n v key' nonce' n' v' k, chacha_new key nonce = Ok v -> chacha_new key' nonce' = Ok v' -> is_word n -> is_word n' -> (0 < k < 4)%nat ->
  with_count n' v' <> Nat.iter k turned (with_count n v).
Proof.
  intros key nonce n v key' nonce' n' v' k H H' W W' Hk E.
  destruct (new_at _ _ _ _ H W) as ((E1 & _) & _). destruct (new_at _ _ _ _ H' W') as ((E2 & _) & _). rewrite E1, E2 in E.
  apply (f_equal (fun l => nth 0 l 0)) in E.
  destruct k as [|[|[|[|k]]]]; [lia|discriminate E|discriminate E|discriminate E|lia].
Qed.
Theorem zero_fixed : round20 (repeat 0 16) = repeat 0 16.
Proof. vm_compute. reflexivity. Qed.

(** the same about what [next] gives *)
Lemma write_le_inj : forall a b, Forall is_word a -> Forall is_word b -> length a = length b -> write_u32_le a = write_u32_le b -> a = b.
Proof.
  induction a as [|x a IH]; intros [|y b] Fa Fb L E; [reflexivity|discriminate L|discriminate L|].
  apply Forall_cons_iff in Fa. apply Forall_cons_iff in Fb. destruct Fa as (Wx & Fa), Fb as (Wy & Fb).
  unfold write_u32_le in E. cbn [map concat] in E.
  assert (E1 : le 4 x = le 4 y /\ concat (map (le 4) a) = concat (map (le 4) b)).
  { apply app_eq_app in E. destruct E as (l & [(E1 & E2)|(E1 & E2)]).
    - pose proof (f_equal (@length _) E1) as G. rewrite app_length, !le_length in G. destruct l; [|cbn in G; lia]. rewrite app_nil_r in E1. auto.
    - pose proof (f_equal (@length _) E1) as G. rewrite app_length, !le_length in G. destruct l; [|cbn in G; lia]. rewrite app_nil_r in E1. auto. }
  destruct E1 as (E1 & E2). f_equal; [apply (le_inj 4); [exact Wx|exact Wy|exact E1]|].
  apply IH; [exact Fa|exact Fb|injection L as L; exact L|exact E2].
Qed.
Lemma round20_words v : sixteen (round20 v).
Proof. split; [reflexivity|]. unfold round20. apply Forall_map. apply Forall_forall. intros i _. apply wadd_word. Qed.
Theorem equal_next : forall m key nonce n v s m' nonce' n' v' s' b, chacha_new key nonce = Ok v -> chacha_new key nonce' = Ok v' -> is_word n -> is_word n' -> (nonce, n) <> (nonce', n') ->
  chacha_next m (with_count n v) = Ok (b, s) -> chacha_next m' (with_count n' v') = Ok (b, s') ->
  let c := Nat.iter 10 double_round (with_count n v) in let c' := Nat.iter 10 double_round (with_count n' v') in
  (forall i, (i < 12)%nat -> nth i c 0 = nth i c' 0) /\ (exists i, (12 <= i < 16)%nat /\ nth i c 0 <> nth i c' 0).
Proof.
  intros m key nonce n v s m' nonce' n' v' s' b H H' W W' D E E'. apply (equal_blocks key nonce n v nonce' n' v' H H' W W' D).
  assert (G : forall m w b s, chacha_next m w = Ok (b, s) -> b = write_u32_le (round20 w)).
  { intros m0 w b0 s0 K. unfold chacha_next in K. destruct (ck m0 32 (at_ w 12 + 1)); [|discriminate K..]. injection K as <- _. reflexivity. }
  apply G in E. apply G in E'. apply write_le_inj; [apply round20_words|apply round20_words|reflexivity|congruence].
Qed.
Theorem turned_both : forall v, length v = 16%nat -> double_round (turned v) = turned (double_round v) /\ round20 (turned v) = turned (round20 v).
Proof. intros v H. split; [apply round_turned|apply block_turned]; exact H. Qed.
Theorem zero_stays : exists v, sixteen v /\ round20 v = v.
Proof. exists (repeat 0 16). split; [|exact zero_fixed]. split; [reflexivity|]. apply Forall_forall. intros x Hx. apply repeat_spec in Hx. subst x. unfold is_word. lia. Qed.
Lemma zero_core : Nat.iter 10 double_round (repeat 0 16) = repeat 0 16.
Proof. vm_compute. reflexivity. Qed.
Lemma zero_sum c v : sixteen c -> sixteen v -> (forall i, (i < 16)%nat -> wadd (nth i c 0) (nth i v 0) = nth i v 0) -> c = repeat 0 16.
Proof.
  intros B H E. apply (list_eq_nth 0); [rewrite (proj1 B); reflexivity|]. rewrite (proj1 B). intros i Hi. specialize (E i Hi).
  pose proof (sixteen_nth _ i B Hi) as W1. pose proof (sixteen_nth _ i H Hi) as W2.
  assert (N : nth i (repeat 0 16) 0 = 0) by (do 16 (destruct i as [|i]; [reflexivity|]); lia).
  rewrite N. unfold wadd, is_word in *. revert E. clear - W1 W2. Z.div_mod_to_equations. lia.
Qed.
Lemma zero_sixteen : sixteen (repeat 0 16).
Proof. split; [reflexivity|]. apply Forall_forall. intros x Hx. apply repeat_spec in Hx. subst x. unfold is_word. lia. Qed.
Lemma inj_rounds v w : sixteen v -> sixteen w -> Nat.iter 10 double_round v = Nat.iter 10 double_round w -> v = w.
Proof.
  intros H H' E. destruct (rounds_permutation v H) as (_ & U & _). destruct (rounds_permutation w H') as (_ & U' & _).
  rewrite E in U. rewrite <- U. exact U'.
Qed.
Theorem only_zero : forall v, sixteen v -> (round20 v = v <-> v = repeat 0 16).
Proof.
  intros v H. split; [|intros ->; exact zero_fixed]. intros E. apply inj_rounds; [exact H|exact zero_sixteen|].
  rewrite zero_core. refine (zero_sum (Nat.iter 10 double_round v) v (proj1 (rounds_permutation v H)) H _).
  intros i Hi. rewrite <- round20_nth by exact Hi. rewrite E. reflexivity.
Qed.
Theorem no_own_block : forall key nonce n v, chacha_new key nonce = Ok v -> is_word n -> round20 (with_count n v) <> with_count n v.
Proof.
  intros key nonce n v H W E. destruct (new_at _ _ _ _ H W) as (A & _). apply only_zero in E; [|exact (at_sixteen _ _ _ _ A)].
  destruct A as (A & _). rewrite A in E. apply (f_equal (fun l => nth 0 l 0)) in E. discriminate E.
Qed.
