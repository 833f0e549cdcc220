(** C110: where equal hash values come from. *)
From Verif Require Import Spec_Collide P_Util P_Sha2.
From Coq Require Import ZifyBool ZifyNat ZifyN.
Local Open Scope list_scope.
Local Open Scope Z_scope.
#[local] Opaque K_frac H_frac sched.

Lemma words8_eight H : words8 H <-> eight_words H.
Proof. reflexivity. Qed.
Lemma add_word a b : is_word (add32s a b).
Proof. apply Z.mod_pos_bound. reflexivity. Qed.
Lemma compress_words blk H : eight_words (sha_compress blk H).
Proof.
  unfold sha_compress. destruct (rounds blk H 64) as [[[[[[[a b] c] d] e] f] g] h]. destruct H as [[[[[[[h0 h1] h2] h3] h4] h5] h6] h7].
  unfold eight_words. repeat (split; [apply add_word|]). apply add_word.
Qed.
Lemma chain_words p n : eight_words (chain p n).
Proof. destruct n; [exact H0_words|apply compress_words]. Qed.
Lemma hash_inj H H' : eight_words H -> eight_words H' -> hash_bytes H = hash_bytes H' -> H = H'.
Proof.
  destruct H as [[[[[[[a b] c] d] e] f] g] h]. destruct H' as [[[[[[[a' b'] c'] d'] e'] f'] g'] h'].
  intros (A & B & C & D & E & F & G & I) (A' & B' & C' & D' & E' & F' & G' & I') X. unfold hash_bytes in X.
  assert (J : forall x y p q, is_word x -> is_word y -> be 4 x ++ p = be 4 y ++ q -> x = y /\ p = q).
  { intros x y p q Hx Hy J. apply app_inj_length in J; [|rewrite !be_length; reflexivity]. destruct J as [J ->]. split; [|reflexivity]. revert J. apply be_inj; assumption. }
  apply J in X as [-> X]; [|assumption..]. apply J in X as [-> X]; [|assumption..]. apply J in X as [-> X]; [|assumption..]. apply J in X as [-> X]; [|assumption..].
  apply J in X as [-> X]; [|assumption..]. apply J in X as [-> X]; [|assumption..]. apply J in X as [-> X]; [|assumption..].
  apply be_inj in X; [|assumption..]. subst. reflexivity.
Qed.
Lemma SHA256_hash msg : SHA256 msg = hash_bytes (chain (fips_pad msg) (sha_blocks msg)).
Proof. reflexivity. Qed.
Lemma SHA256_chain a b : SHA256 a = SHA256 b <-> chain (fips_pad a) (sha_blocks a) = chain (fips_pad b) (sha_blocks b).
Proof. rewrite !SHA256_hash. split; [apply hash_inj; apply chain_words|intros ->; reflexivity]. Qed.
Lemma blocks_length msg : length (fips_pad msg) = (64 * sha_blocks msg)%nat.
Proof. unfold sha_blocks. pose proof (fips_pad_length msg) as L. pose proof (Nat.div_mod (length (fips_pad msg)) 64 ltac:(lia)). lia. Qed.
Lemma blocks_pos msg : (0 < sha_blocks msg)%nat.
Proof. pose proof (blocks_length msg) as L. unfold fips_pad in L. rewrite !app_length, be_length in L. lia. Qed.
Lemma step_dec (x y : bytes * eight) : {x = y} + {x <> y}.
Proof.
  destruct x as [x [[[[[[[a b] c] d] e] f] g] h]], y as [y [[[[[[[a' b'] c'] d'] e'] f'] g'] h']].
  destruct (list_eq_dec Byte.byte_eq_dec x y) as [->|N]; [|right; congruence].
  destruct (list_eq_dec Z.eq_dec [a; b; c; d; e; f; g; h] [a'; b'; c'; d'; e'; f'; g'; h']) as [E|N]; [left; congruence|right; congruence].
Defined.
Lemma firstn_add' {A} n k (p : list A) : firstn (n + k) p = firstn n p ++ firstn k (skipn n p).
Proof. revert p. induction n as [|n IH]; intros [|x p]; cbn [Nat.add firstn skipn app]; rewrite ?firstn_nil; [reflexivity..|]. f_equal. apply IH. Qed.
Lemma skipn_add {A} n k (p : list A) : skipn k (skipn n p) = skipn (k + n) p.
Proof. revert p. induction n as [|n IH]; intros p; [rewrite Nat.add_0_r; reflexivity|]. rewrite Nat.add_succ_r. destruct p; [apply skipn_nil|]. apply IH. Qed.
Lemma firstn_block {A} n (p : list A) : firstn (64 * S n) p = firstn (64 * n) p ++ firstn 64 (skipn (64 * n) p).
Proof. replace (64 * S n)%nat with (64 * n + 64)%nat by lia. apply firstn_add'. Qed.
(** same number of blocks *)
Lemma chain_collide p q n : chain p n = chain q n -> firstn (64 * n) p = firstn (64 * n) q \/
  exists i, (i < n)%nat /\ (firstn 64 (skipn (64 * i) p), chain p i) <> (firstn 64 (skipn (64 * i) q), chain q i) /\ chain p (S i) = chain q (S i).
Proof.
  induction n as [|n IH]; intros E; [left; reflexivity|].
  destruct (step_dec (firstn 64 (skipn (64 * n) p), chain p n) (firstn 64 (skipn (64 * n) q), chain q n)) as [Y|N].
  - apply pair_equal_spec in Y as [Y1 Y2]. destruct (IH Y2) as [F|(i & L & N & C)]; [left|right; exists i; auto].
    rewrite !firstn_block. congruence.
  - right. exists n. auto.
Qed.
Theorem hash_collides a b : zlen a < 2 ^ 61 -> zlen b < 2 ^ 61 -> a <> b -> SHA256 a = SHA256 b -> collides a b.
Proof.
  intros La Lb N E. apply SHA256_chain in E. destruct (Nat.eq_dec (length a) (length b)) as [L|L].
  - left. split; [exact L|]. assert (EB : sha_blocks a = sha_blocks b).
    { unfold sha_blocks, fips_pad, zeros. rewrite !app_length, !repeat_length, !be_length, L. reflexivity. }
    rewrite <- EB in E. destruct (chain_collide _ _ _ E) as [F|(i & I & X & C)].
    + exfalso. apply N. apply fips_pad_inj; [exact La|exact Lb|]. rewrite !firstn_all2 in F by (rewrite blocks_length; lia). exact F.
    + exists i. split; [exact I|]. split; [lia|]. split; [exact X|exact C].
  - right. split; [exact L|]. pose proof (blocks_pos a). pose proof (blocks_pos b). split; [lia|]. split; [lia|].
    destruct (sha_blocks a) as [|n] eqn:Ea; [lia|]. destruct (sha_blocks b) as [|k] eqn:Eb; [lia|]. rewrite !Nat.sub_succ, !Nat.sub_0_r. split; [|exact E].
    intros X. apply (f_equal fst) in X. cbn [fst sha_step] in X. pose proof (blocks_length a) as Pa. pose proof (blocks_length b) as Pb. rewrite Ea in Pa. rewrite Eb in Pb.
    rewrite !firstn_all2 in X by (rewrite skipn_length; lia).
    assert (T : forall msg, 8 * zlen msg < 2 ^ 64 -> forall i, (i + 8 <= length (fips_pad msg))%nat -> skipn (length (skipn i (fips_pad msg)) - 8) (skipn i (fips_pad msg)) = be 8 (8 * zlen msg)).
    { intros msg _ i Li. rewrite skipn_add, skipn_length. replace (length (fips_pad msg) - i - 8 + i)%nat with (length (fips_pad msg) - 8)%nat by lia.
      unfold fips_pad. rewrite !app_assoc. rewrite app_length, be_length, Nat.add_sub. rewrite skipn_app, skipn_all, Nat.sub_diag. reflexivity. }
    pose proof (T a ltac:(lia) (64 * n)%nat ltac:(lia)) as Ta. pose proof (T b ltac:(lia) (64 * k)%nat ltac:(lia)) as Tb. rewrite X in Ta. rewrite Ta in Tb.
    pose proof (zlen_nonneg a). pose proof (zlen_nonneg b). apply be_inj in Tb; [|change (256 ^ Z.of_nat 8) with (2 ^ 64); lia..]. unfold zlen in *. lia.
Qed.

(** ** The rounds *)
Definition back (blk : bytes) (t : nat) (R : eight) : eight :=
  let '(a, b, c, d, e, f, g, h) := R in
  let T2 := (Sigma0 b + Maj b c d) mod 2 ^ 32 in let T1 := (a - T2) mod 2 ^ 32 in
  (b, c, d, (e - T1) mod 2 ^ 32, f, g, h, (T1 - Sigma1 f - Ch f g h - K_frac t - W_ blk t) mod 2 ^ 32).
Definition one_round (blk : bytes) (t : nat) (H : eight) : eight :=
  let '(a, b, c, d, e, f, g, h) := H in
  let T1 := (h + Sigma1 e + Ch e f g + K_frac t + W_ blk t) mod 2 ^ 32 in
  let T2 := (Sigma0 a + Maj a b c) mod 2 ^ 32 in
  (add32s T1 T2, a, b, c, add32s d T1, e, f, g).
Lemma rounds_S blk H n : rounds blk H (S n) = one_round blk n (rounds blk H n).
Proof. cbn [rounds]. destruct (rounds blk H n) as [[[[[[[a b] c] d] e] f] g] h]. reflexivity. Qed.
Lemma undo x y : is_word x -> ((x + y) mod 2 ^ 32 - y) mod 2 ^ 32 = x.
Proof. intros H. rewrite Zminus_mod_idemp_l. rewrite Z.add_simpl_r. apply Z.mod_small, H. Qed.
Lemma redo x y : is_word x -> ((x - y) mod 2 ^ 32 + y) mod 2 ^ 32 = x.
Proof. intros H. rewrite Zplus_mod_idemp_l. rewrite Z.sub_add. apply Z.mod_small, H. Qed.
Lemma mod_word x : is_word (x mod 2 ^ 32).
Proof. apply Z.mod_pos_bound. reflexivity. Qed.
#[local] Opaque Z.modulo Sigma0 Sigma1 Maj Ch W_ Z.pow.
Lemma back_round blk t H : eight_words H -> back blk t (one_round blk t H) = H.
Proof.
  destruct H as [[[[[[[a b] c] d] e] f] g] h]. intros (A & B & C & D & E & F & G & I). unfold one_round, back, add32s.
  set (T2 := (Sigma0 a + Maj a b c) mod 2 ^ 32). set (T1 := (h + Sigma1 e + Ch e f g + K_frac t + W_ blk t) mod 2 ^ 32).
  rewrite (undo T1 T2) by apply mod_word. rewrite (undo d T1 D). repeat apply f_equal2; try reflexivity.
  unfold T1. replace (h + Sigma1 e + Ch e f g + K_frac t + W_ blk t) with (h + (Sigma1 e + Ch e f g + K_frac t + W_ blk t)) by lia.
  set (s := Sigma1 e + Ch e f g + K_frac t + W_ blk t). replace ((h + s) mod 2 ^ 32 - Sigma1 e - Ch e f g - K_frac t - W_ blk t) with ((h + s) mod 2 ^ 32 - s) by (unfold s; lia). exact (undo h s I).
Qed.
Lemma round_back blk t R : eight_words R -> one_round blk t (back blk t R) = R.
Proof.
  destruct R as [[[[[[[a b] c] d] e] f] g] h]. intros (A & B & C & D & E & F & G & I). unfold one_round, back, add32s.
  set (T2 := (Sigma0 b + Maj b c d) mod 2 ^ 32). set (T1 := (a - T2) mod 2 ^ 32). set (s := Sigma1 f + Ch f g h + K_frac t + W_ blk t).
  replace ((T1 - Sigma1 f - Ch f g h - K_frac t - W_ blk t) mod 2 ^ 32 + Sigma1 f + Ch f g h + K_frac t + W_ blk t) with ((T1 - s) mod 2 ^ 32 + s)
    by (unfold s; replace (T1 - (Sigma1 f + Ch f g h + K_frac t + W_ blk t)) with (T1 - Sigma1 f - Ch f g h - K_frac t - W_ blk t) by lia; lia).
  rewrite (redo T1 s) by apply mod_word. unfold T1 at 1. rewrite (redo a T2 A), (redo e T1 E). reflexivity.
Qed.
Lemma one_round_words blk t H : eight_words H -> eight_words (one_round blk t H).
Proof.
  destruct H as [[[[[[[a b] c] d] e] f] g] h]. intros (A & B & C & D & E & F & G & I). unfold one_round, eight_words.
  split; [apply add_word|]. do 3 (split; [assumption|]). split; [apply add_word|]. auto.
Qed.
Lemma back_words blk t H : eight_words H -> eight_words (back blk t H).
Proof.
  destruct H as [[[[[[[a b] c] d] e] f] g] h]. intros (A & B & C & D & E & F & G & I). unfold back, eight_words.
  do 3 (split; [assumption|]). split; [apply mod_word|]. do 3 (split; [assumption|]). apply mod_word.
Qed.
Lemma rounds_words blk H n : eight_words H -> eight_words (rounds blk H n).
Proof. intros W. induction n as [|n IH]; [exact W|]. rewrite rounds_S. apply one_round_words, IH. Qed.
Lemma rounds_inj blk n : forall H H', eight_words H -> eight_words H' -> rounds blk H n = rounds blk H' n -> H = H'.
Proof.
  induction n as [|n IH]; intros H H' W W' E; [exact E|]. apply IH; [exact W|exact W'|]. rewrite !rounds_S in E.
  rewrite <- (back_round blk n (rounds blk H n)), E, back_round; [reflexivity|apply rounds_words; exact W'|apply rounds_words; exact W].
Qed.
Lemma rounds_onto blk n : forall R, eight_words R -> exists H, eight_words H /\ rounds blk H n = R.
Proof.
  induction n as [|n IH]; intros R W; [exists R; auto|]. destruct (IH (back blk n R) (back_words _ _ _ W)) as (H & WH & E).
  exists H. split; [exact WH|]. rewrite rounds_S, E. apply round_back, W.
Qed.
Theorem rounds_bijective blk : (forall H H', eight_words H -> eight_words H' -> rounds blk H 64 = rounds blk H' 64 -> H = H') /\
  (forall R, eight_words R -> exists H, eight_words H /\ rounds blk H 64 = R).
Proof. exact (conj (rounds_inj blk 64) (rounds_onto blk 64)). Qed.
