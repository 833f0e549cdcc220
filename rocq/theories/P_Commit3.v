(** Proofs for C115: records of a client that a client would open. *)
From Verif Require Export P_Commit Spec_Face.
From Verif Require Import P_Util P_Chacha P_Aead P_Commit2 P_Face.
From Coq Require Import ZifyBool ZifyNat ZifyN.
Local Open Scope list_scope.
Local Open Scope Z_scope.
#[local] Opaque chacha20_block.

(** the part of a ciphertext that stands behind [k] bytes *)
Definition behind (key nonce : bytes) (k : nat) (b : bytes) : bytes := map (fun i => bxor (nth i b x00) (keystream key nonce 1 (k + i))) (seq 0 (length b)).
Lemma behind_length key nonce k b : length (behind key nonce k b) = length b.
Proof. unfold behind. rewrite map_length, seq_length. reflexivity. Qed.
Lemma behind_app key nonce k a b : behind key nonce k (a ++ b) = behind key nonce k a ++ behind key nonce (k + length a) b.
Proof.
  unfold behind. rewrite app_length, seq_app, map_app. f_equal.
  - apply map_ext_in. intros i I. apply in_seq in I. rewrite app_nth1 by lia. reflexivity.
  - cbn [Nat.add]. rewrite map_seq_shift. apply map_ext_in. intros i _. rewrite app_nth2 by lia.
    replace (length a + i - length a)%nat with i by lia. rewrite Nat.add_assoc. reflexivity.
Qed.
Lemma behind_inj key nonce k b b' : length b = length b' -> behind key nonce k b = behind key nonce k b' -> b = b'.
Proof.
  intros L E. apply (nth_ext _ _ x00 x00 L). intros i I.
  assert (N : forall a, (i < length a)%nat -> nth i (behind key nonce k a) x00 = bxor (nth i a x00) (keystream key nonce 1 (k + i))).
  { intros a Ia. unfold behind. rewrite (nth_indep _ x00 (bxor (nth 0 a x00) (keystream key nonce 1 (k + 0)))) by (rewrite map_length, seq_length; exact Ia).
    rewrite (map_nth (fun i => bxor (nth i a x00) (keystream key nonce 1 (k + i)))), seq_nth by exact Ia. reflexivity. }
  pose proof (f_equal (fun l => nth i l x00) E) as X. cbv beta in X. rewrite !N in X by lia. apply (f_equal (fun y => bxor y (keystream key nonce 1 (k + i)))) in X.
  rewrite !bxor_cancel_r in X. exact X.
Qed.
Theorem reflected_few : forall key iv k key' iv' k' t u v bs, (length u mod 16 = 0)%nat -> NoDup bs ->
  ~ (P1305 | point_of key (rfc_nonce iv k) ^ power_of v - point_of key' (rfc_nonce iv' k') ^ power_of v) ->
  Forall (fun b => length b = 16%nat /\ exists q, two_seals key iv k key' iv' k' t (u ++ b ++ v) q) bs -> Z.of_nat (length bs) <= 8.
Proof.
  intros key iv k key' iv' k' t u v bs Lu D N F. set (n := rfc_nonce iv k) in *. set (E := behind key n (length u)).
  set (z := Z.of_nat (length u + (16 + length v))).
  rewrite <- (map_length E bs). apply (few_blocks key n (rfc_ad k t x03 x03 z) key' (rfc_nonce iv' k') (rfc_ad k' t x03 x03 z) (behind key n 0 u) (behind key n (length u + 16) v)).
  - rewrite behind_length. exact Lu.
  - rewrite Forall_forall in F. apply NoDup_map_on; [exact D|]. intros b b' I I'. destruct (F b I) as (L & _), (F b' I') as (L' & _). apply behind_inj. lia.
  - unfold power_of, nblocks. rewrite behind_length. exact N.
  - apply Forall_forall. intros B I. apply in_map_iff in I as (b & <- & I). rewrite Forall_forall in F. destruct (F b I) as (L & q & Lq & S).
    split; [unfold E; rewrite behind_length; exact L|].
    assert (Lz : zlen (u ++ b ++ v) = z) by (unfold zlen, z; rewrite !app_length; lia). rewrite <- Lq, Lz in S. fold n in S.
    assert (C : chacha20_encrypt key 1 n (u ++ b ++ v) = behind key n 0 u ++ E b ++ behind key n (length u + 16) v).
    { change (chacha20_encrypt key 1 n (u ++ b ++ v)) with (behind key n 0 (u ++ b ++ v)). rewrite !behind_app, L. reflexivity. }
    assert (T : exists tag, length tag = 16%nat /\ aead_seal key n (rfc_ad k t x03 x03 z) (u ++ b ++ v) = (behind key n 0 u ++ E b ++ behind key n (length u + 16) v) ++ tag).
    { rewrite <- C. eexists. split; [|reflexivity]. apply poly1305_mac_length. }
    destruct T as (tag & Lt & T). exists tag. split; (split; [exact Lt|]); [exists (u ++ b ++ v); exact T|exists q; rewrite <- S; exact T].
Qed.

(** of the records of a client that differ in one block, a client opens at most eight *)
Theorem own_few : forall mm s g ss mm' s' g' ss' k j t u v bs, reached mm s g (Complete ss) -> reached mm' s' g' (Complete ss') -> k + 1 < 2 ^ 64 ->
  (length u mod 16 = 0)%nat -> zlen u + 16 + zlen v <= 16384 -> NoDup bs ->
  ~ (P1305 | point_of (k_client (s_keys ss')) (rfc_nonce (iv_client (s_keys ss')) j) ^ power_of v - point_of (k_server (s_keys ss)) (rfc_nonce (iv_server (s_keys ss)) k) ^ power_of v) ->
  Forall (fun b => length b = 16%nat /\ exists m r rest, keyed m r (k_server (s_keys ss)) (iv_server (s_keys ss)) k /\
    stream (r_src r) = sealed_record (k_client (s_keys ss')) (iv_client (s_keys ss')) j t (u ++ b ++ v) ++ rest /\ fst (read_record m r) <> Err BadRecordMac) bs ->
  Z.of_nat (length bs) <= 8.
Proof.
  intros mm s g ss mm' s' g' ss' k j t u v bs R R' Bk Lu Lz D N F.
  apply (reflected_few (k_client (s_keys ss')) (iv_client (s_keys ss')) j (k_server (s_keys ss)) (iv_server (s_keys ss)) k t u v bs Lu D N).
  eapply Forall_impl; [|exact F]. cbn beta. intros b (L & m & r & rest & K & St & X). split; [exact L|].
  destruct (own_record m mm s g ss mm' s' g' ss' r k j t (u ++ b ++ v) rest R R' K Bk ltac:(unfold zlen in *; rewrite !app_length; lia) St) as [(r' & E & _)|(q & (Lq & S) & _)].
  - exfalso. apply X. rewrite E. reflexivity.
  - exists q. split; [symmetry; exact Lq|]. symmetry. exact S.
Qed.
