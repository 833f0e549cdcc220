(** Proofs for C115: ciphertexts that open under two keys. *)
From Verif Require Export Spec_Commit P_Forge.
From Verif Require Import P_Util P_Aead.
From Coq Require Import ZifyBool ZifyNat ZifyN Znumtheory.
Local Open Scope list_scope.
Local Open Scope Z_scope.
#[local] Opaque chacha20_block.

Lemma acc_same r m1 m2 : forall n, (forall i, (i < n)%nat -> block_num m1 i = block_num m2 i) -> poly_acc r m1 n = poly_acc r m2 n.
Proof. induction n as [|n IH]; intros H; [reflexivity|]. cbn [poly_acc]. rewrite IH, (H n); [reflexivity|lia|]. intros i Hi. apply H. lia. Qed.
Lemma mod_congr a b : (P1305 | a - b) -> (P1305 | a mod P1305 - b mod P1305).
Proof.
  intros (k & E). pose proof (Z.div_mod a P1305 ltac:(discriminate)). pose proof (Z.div_mod b P1305 ltac:(discriminate)).
  exists (k - a / P1305 + b / P1305). lia.
Qed.
Lemma mod_back a : (P1305 | a mod P1305 - a).
Proof. pose proof (Z.div_mod a P1305 ltac:(discriminate)). exists (- (a / P1305)). lia. Qed.
(** one block is changed *)
Lemma acc_change r m1 m2 i0 : forall n, (i0 < n)%nat -> (forall i, (i < n)%nat -> i <> i0 -> block_num m1 i = block_num m2 i) ->
  (P1305 | poly_acc r m1 n - poly_acc r m2 n - (block_num m1 i0 - block_num m2 i0) * r ^ Z.of_nat (n - i0)).
Proof.
  induction n as [|n IH]; intros L H; [lia|]. cbn [poly_acc].
  assert (M : forall a b c, (P1305 | a - b - c) -> (P1305 | a mod P1305 - b mod P1305 - c)).
  { intros a b c (k & E). pose proof (Z.div_mod a P1305 ltac:(discriminate)). pose proof (Z.div_mod b P1305 ltac:(discriminate)).
    exists (k - a / P1305 + b / P1305). lia. }
  apply M. destruct (Nat.eq_dec i0 n) as [->|Ne].
  - rewrite (acc_same r m1 m2 n) by (intros i Hi; apply H; lia). replace (S n - n)%nat with 1%nat by lia. change (Z.of_nat 1) with 1. rewrite Z.pow_1_r.
    exists 0. ring.
  - rewrite (H n) by lia. destruct (IH ltac:(lia) ltac:(intros i Hi; apply H; lia)) as (k & E).
    replace (S n - i0)%nat with (S (n - i0)) by lia. rewrite Nat2Z.inj_succ, Z.pow_succ_r by lia. exists (r * k).
    replace (r * k * P1305) with (r * (k * P1305)) by ring. rewrite <- E. ring.
Qed.
Lemma blocks_split u b v i a : length u = (16 * a)%nat -> length b = 16%nat ->
  mblock (u ++ b ++ v) i = if (i <? a)%nat then mblock u i else if (i =? a)%nat then b else mblock v (i - a - 1).
Proof.
  intros Lu Lb. unfold mblock. rewrite !skipn_app. destruct (Nat.ltb_spec i a) as [L|L].
  - replace (16 * i - length u)%nat with 0%nat by lia. rewrite firstn_app, skipn_length. replace (16 - (length u - 16 * i))%nat with 0%nat by lia. apply app_nil_r.
  - rewrite (skipn_all2 u) by lia. cbn [app]. destruct (Nat.eqb_spec i a) as [->|Ne].
    + replace (16 * a - length u)%nat with 0%nat by lia. cbn [skipn]. replace (0 - length b)%nat with 0%nat by lia. cbn [skipn].
      rewrite firstn_app. replace (16 - length b)%nat with 0%nat by lia. rewrite firstn_all2 by lia. apply app_nil_r.
    + rewrite (skipn_all2 b) by lia. cbn [app]. do 2 f_equal. lia.
Qed.
Lemma split_num u b v a : length u = (16 * a)%nat -> length b = 16%nat -> block_num (u ++ b ++ v) a = le_val b + 2 ^ 128.
Proof. intros Lu Lb. unfold block_num. rewrite (blocks_split u b v a a Lu Lb), Nat.ltb_irrefl, Nat.eqb_refl, Lb. reflexivity. Qed.
Lemma split_other u b b' v a i : length u = (16 * a)%nat -> length b = 16%nat -> length b' = 16%nat -> i <> a -> block_num (u ++ b ++ v) i = block_num (u ++ b' ++ v) i.
Proof.
  intros Lu Lb Lb' Ne. unfold block_num. rewrite (blocks_split u b v i a Lu Lb), (blocks_split u b' v i a Lu Lb').
  destruct (Nat.eqb_spec i a); [contradiction|]. reflexivity.
Qed.
Lemma split_blocks u b v a : length u = (16 * a)%nat -> length b = 16%nat -> nblocks (u ++ b ++ v) = (a + 1 + nblocks v)%nat.
Proof.
  intros Lu Lb. unfold nblocks. rewrite !app_length, Lu, Lb. replace (16 * a + (16 + length v) + 15)%nat with ((length v + 15) + (a + 1) * 16)%nat by lia.
  rewrite Nat.div_add by discriminate. lia.
Qed.
Lemma shift_mod a b s t M : 0 < M -> (a + s) mod M = (b + t) mod M -> (t - s) mod M = (a - b) mod M.
Proof.
  intros P E. pose proof (Z.div_mod (a + s) M ltac:(lia)) as D1. pose proof (Z.div_mod (b + t) M ltac:(lia)) as D2.
  replace (a - b) with (t - s + ((a + s) / M - (b + t) / M) * M) by lia. symmetry. apply Z_mod_plus_full.
Qed.
(** two messages with one block in common, tags that agree: few values for the block *)
Lemma common_block u1 v1 a1 u2 v2 a2 r1 r2 s1 s2 bs : length u1 = (16 * a1)%nat -> length u2 = (16 * a2)%nat -> NoDup bs ->
  ~ (P1305 | r1 ^ Z.of_nat (1 + nblocks v1) - r2 ^ Z.of_nat (1 + nblocks v2)) ->
  Forall (fun b => length b = 16%nat /\ (poly_acc r1 (u1 ++ b ++ v1) (nblocks (u1 ++ b ++ v1)) + s1) mod 2 ^ 128 =
                                        (poly_acc r2 (u2 ++ b ++ v2) (nblocks (u2 ++ b ++ v2)) + s2) mod 2 ^ 128) bs ->
  Z.of_nat (length bs) <= 8.
Proof.
  intros L1 L2 D N F. rewrite Forall_forall in F.
  set (h1 := fun b : bytes => poly_acc r1 (u1 ++ b ++ v1) (nblocks (u1 ++ b ++ v1))). set (h2 := fun b : bytes => poly_acc r2 (u2 ++ b ++ v2) (nblocks (u2 ++ b ++ v2))).
  set (f := fun b => (h1 b - h2 b) / 2 ^ 128 + 4).
  assert (R : forall b, In b bs -> h1 b - h2 b = (s2 - s1) mod 2 ^ 128 + 2 ^ 128 * (f b - 4) /\ 0 <= f b < 8).
  { intros b I. destruct (F b I) as (_ & E). fold (h1 b) (h2 b) in E. pose proof (poly_acc_range r1 (u1 ++ b ++ v1) (nblocks (u1 ++ b ++ v1))) as R1.
    pose proof (poly_acc_range r2 (u2 ++ b ++ v2) (nblocks (u2 ++ b ++ v2))) as R2. fold (h1 b) in R1. fold (h2 b) in R2.
    assert (E2 : (s2 - s1) mod 2 ^ 128 = (h1 b - h2 b) mod 2 ^ 128).
    { apply shift_mod; [reflexivity|exact E]. }
    rewrite E2. pose proof (Z.div_mod (h1 b - h2 b) (2 ^ 128) ltac:(discriminate)) as Dm. pose proof (Z.mod_pos_bound (h1 b - h2 b) (2 ^ 128) ltac:(reflexivity)) as Bm.
    unfold f. clearbody h1 h2. unfold P1305 in R1, R2. clear E E2 F. split; [|lia]. replace ((h1 b - h2 b) / 2 ^ 128 + 4 - 4) with ((h1 b - h2 b) / 2 ^ 128) by ring. lia. }
  assert (J : forall b b', In b bs -> In b' bs -> f b = f b' -> b = b').
  { intros b b' I I' E. destruct (F b I) as (Lb & _), (F b' I') as (Lb' & _). destruct (R b I) as (Rb & _), (R b' I') as (Rb' & _). rewrite E in Rb.
    assert (Eh : h1 b - h1 b' = h2 b - h2 b') by lia.
    assert (C1 : (P1305 | h1 b - h1 b' - (le_val b - le_val b') * r1 ^ Z.of_nat (1 + nblocks v1))).
    { unfold h1. rewrite !(split_blocks _ _ _ a1) by assumption.
      pose proof (acc_change r1 (u1 ++ b ++ v1) (u1 ++ b' ++ v1) a1 (a1 + 1 + nblocks v1) ltac:(lia) ltac:(intros i _ Ni; apply (split_other _ _ _ _ a1); assumption)) as C.
      rewrite !(split_num _ _ _ a1) in C by assumption. replace (a1 + 1 + nblocks v1 - a1)%nat with (1 + nblocks v1)%nat in C by lia.
      replace (le_val b + 2 ^ 128 - (le_val b' + 2 ^ 128)) with (le_val b - le_val b') in C by ring. exact C. }
    assert (C2 : (P1305 | h2 b - h2 b' - (le_val b - le_val b') * r2 ^ Z.of_nat (1 + nblocks v2))).
    { unfold h2. rewrite !(split_blocks _ _ _ a2) by assumption.
      pose proof (acc_change r2 (u2 ++ b ++ v2) (u2 ++ b' ++ v2) a2 (a2 + 1 + nblocks v2) ltac:(lia) ltac:(intros i _ Ni; apply (split_other _ _ _ _ a2); assumption)) as C.
      rewrite !(split_num _ _ _ a2) in C by assumption. replace (a2 + 1 + nblocks v2 - a2)%nat with (1 + nblocks v2)%nat in C by lia.
      replace (le_val b + 2 ^ 128 - (le_val b' + 2 ^ 128)) with (le_val b - le_val b') in C by ring. exact C. }
    rewrite Eh in C1. pose proof (Z.divide_sub_r _ _ _ C2 C1) as C.
    replace (h2 b - h2 b' - (le_val b - le_val b') * r2 ^ Z.of_nat (1 + nblocks v2) - (h2 b - h2 b' - (le_val b - le_val b') * r1 ^ Z.of_nat (1 + nblocks v1)))
      with ((le_val b - le_val b') * (r1 ^ Z.of_nat (1 + nblocks v1) - r2 ^ Z.of_nat (1 + nblocks v2))) in C by ring.
    destruct (prime_mult P1305 prime_p1305 _ _ C) as [(k & Ek)|X]; [|contradiction].
    apply val16_inj; [assumption|assumption|]. pose proof (val16 b Lb). pose proof (val16 b' Lb'). unfold P1305 in Ek. clear - Ek H H0.
    assert (k = 0) by lia. subst k. lia. }
  pose proof (z_range_length 8 (map f bs) (NoDup_map_on f bs D J)) as Z8. rewrite map_length in Z8.
  assert (Forall (fun x => 0 <= x < 8) (map f bs)) as Fr.
  { apply Forall_forall. intros x Ix. apply in_map_iff in Ix as (b & <- & I). apply (R b I). }
  specialize (Z8 Fr). lia.
Qed.

(** ** for the cipher *)
Lemma sealing_tag key nonce aad ct tag : sealing key nonce aad ct tag ->
  poly1305_mac (aead_mac_data aad ct) (firstn 16 (poly_key_gen key nonce)) (skipn 16 (poly_key_gen key nonce)) = tag.
Proof.
  intros (Lt & p & E). unfold aead_seal in E. set (c := chacha20_encrypt key 1 nonce p) in *.
  assert (L : length c = length ct).
  { apply (f_equal (@length byte)) in E. rewrite !app_length, Lt in E. unfold poly1305_mac in E. rewrite le_length in E. lia. }
  assert (E1 : c = ct).
  { apply (f_equal (firstn (length c))) in E. rewrite firstn_app, Nat.sub_diag, firstn_all, app_nil_r in E. rewrite E, L, firstn_app, Nat.sub_diag, firstn_all. apply app_nil_r. }
  rewrite E1 in E. apply app_inv_head in E. exact E.
Qed.
Lemma mac_data_split aad u b v a : length u = (16 * a)%nat -> length b = 16%nat -> exists w1 a1,
  length w1 = (16 * a1)%nat /\ forall b', length b' = 16%nat -> aead_mac_data aad (u ++ b' ++ v) = w1 ++ b' ++ (v ++ zeros (pad16_len (length (u ++ b ++ v))) ++ le 8 (zlen aad) ++ le 8 (zlen (u ++ b ++ v))).
Proof.
  intros Lu Lb. destruct (pad16_total (length aad)) as (k & Ek & _). exists (aad ++ zeros (pad16_len (length aad)) ++ u), (k + a)%nat. split.
  - rewrite !app_length. unfold zeros. rewrite repeat_length. lia.
  - intros b' Lb'. unfold aead_mac_data. assert (Ll : length (u ++ b' ++ v) = length (u ++ b ++ v)) by (rewrite !app_length; lia).
    unfold zlen. rewrite Ll, <- !app_assoc. reflexivity.
Qed.
Lemma rest_blocks u b v a n n' : length u = (16 * a)%nat -> length b = 16%nat -> Z.of_nat (1 + nblocks (v ++ zeros (pad16_len (length (u ++ b ++ v))) ++ le 8 n ++ le 8 n')) = power_of v.
Proof.
  intros Lu Lb. unfold power_of, nblocks, zeros. rewrite !app_length, !le_length, repeat_length.
  assert (Ep : pad16_len (length u + (length b + length v)) = pad16_len (length v)).
  { unfold pad16_len. replace (length u + (length b + length v))%nat with (length v + (a + 1) * 16)%nat by lia. rewrite Nat.mod_add by discriminate. reflexivity. }
  rewrite Ep. destruct (pad16_total (length v)) as (k & Ek & Ez). replace (length v + (pad16_len (length v) + (8 + 8)) + 15)%nat with (15 + (k + 1) * 16)%nat by lia.
  rewrite Nat.div_add by discriminate. change (15 / 16)%nat with 0%nat. rewrite Nat2Z.inj_add, Nat2Z.inj_add, Nat2Z.inj_div, !Nat2Z.inj_add. cbn [Z.of_nat]. lia.
Qed.
Theorem few_blocks : forall key nonce aad key' nonce' aad' u v bs, (length u mod 16 = 0)%nat -> NoDup bs ->
  ~ (P1305 | point_of key nonce ^ power_of v - point_of key' nonce' ^ power_of v) ->
  Forall (fun b => length b = 16%nat /\ exists tag, sealing key nonce aad (u ++ b ++ v) tag /\ sealing key' nonce' aad' (u ++ b ++ v) tag) bs ->
  Z.of_nat (length bs) <= 8.
Proof.
  intros key nonce aad key' nonce' aad' u v bs Lu D N F. destruct bs as [|b0 bs0]; [cbn; lia|]. set (bs := b0 :: bs0) in *.
  assert (L0 : length b0 = 16%nat) by (inversion F; tauto).
  assert (Lu' : length u = (16 * (length u / 16))%nat) by (pose proof (Nat.div_mod (length u) 16 ltac:(discriminate)); lia).
  destruct (mac_data_split aad u b0 v _ Lu' L0) as (w1 & a1 & L1 & E1). destruct (mac_data_split aad' u b0 v _ Lu' L0) as (w2 & a2 & L2 & E2).
  set (v1 := v ++ zeros (pad16_len (length (u ++ b0 ++ v))) ++ le 8 (zlen aad) ++ le 8 (zlen (u ++ b0 ++ v))) in *.
  set (v2 := v ++ zeros (pad16_len (length (u ++ b0 ++ v))) ++ le 8 (zlen aad') ++ le 8 (zlen (u ++ b0 ++ v))) in *.
  assert (N1 : Z.of_nat (1 + nblocks v1) = power_of v) by (apply (rest_blocks u b0 v _ _ _ Lu' L0)).
  assert (N2 : Z.of_nat (1 + nblocks v2) = power_of v) by (apply (rest_blocks u b0 v _ _ _ Lu' L0)).
  apply (common_block w1 v1 a1 w2 v2 a2 (point_of key nonce) (point_of key' nonce') (le_val (skipn 16 (poly_key_gen key nonce))) (le_val (skipn 16 (poly_key_gen key' nonce'))) bs L1 L2 D);
    [rewrite N1, N2; exact N|].
  eapply Forall_impl; [|exact F]. cbn beta. intros b (Lb & tag & S1 & S2). split; [exact Lb|].
  apply sealing_tag, mac_eq in S1. apply sealing_tag, mac_eq in S2. rewrite (E1 b Lb) in S1. rewrite (E2 b Lb) in S2. unfold point_of. rewrite S1, S2. reflexivity.
Qed.
