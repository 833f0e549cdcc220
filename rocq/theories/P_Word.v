(** Word arithmetic: the bit operations of the code against their arithmetic meaning. *)
From Verif Require Export M_Word Spec_Crypto.
From Coq Require Import ZifyBool ZifyNat ZifyN.

Lemma land_high_low a b n : 0 <= n -> 0 <= b < 2 ^ n -> Z.land (a * 2 ^ n) b = 0.
Proof.
  intros Hn Hb. apply Z.bits_inj'. intros i Hi. rewrite Z.land_spec, Z.bits_0.
  destruct (Z.ltb_spec i n).
  - rewrite Z.mul_pow2_bits_low by lia. reflexivity.
  - rewrite <- (Z.mod_small b (2 ^ n)) by lia. rewrite Z.mod_pow2_bits_high by lia. apply andb_false_r.
Qed.

Lemma lor_high_low a b n : 0 <= n -> 0 <= b < 2 ^ n -> Z.lor (a * 2 ^ n) b = a * 2 ^ n + b.
Proof.
  intros Hn Hb. pose proof (land_high_low a b n Hn Hb) as H.
  rewrite Z.add_nocarry_lxor by exact H. rewrite Z.lxor_lor by exact H. reflexivity.
Qed.

Lemma mul_pow_mod x n w : 0 <= n <= w -> (x * 2 ^ n) mod 2 ^ w = (x mod 2 ^ (w - n)) * 2 ^ n.
Proof.
  intros H. replace (2 ^ w) with (2 ^ (w - n) * 2 ^ n) by (rewrite <- Z.pow_add_r by lia; f_equal; lia).
  apply Z.mul_mod_distr_r; apply Z.pow_nonzero; lia.
Qed.

Lemma rotate_left_rol x n : is_word x -> 0 < n < 32 -> rotate_left x n = rol x n.
Proof.
  intros Hx Hn. unfold is_word, rotate_left, rol, wshl, wshr, as_u32 in *.
  rewrite Z.shiftl_mul_pow2, Z.shiftr_div_pow2 by lia.
  rewrite mul_pow_mod by lia. apply lor_high_low; [lia|].
  split; [apply Z.div_pos; lia|]. apply Z.div_lt_upper_bound; [lia|].
  rewrite <- Z.pow_add_r by lia. replace (32 - n + n) with 32 by lia. lia.
Qed.

Lemma rotate_right_ror x n : is_word x -> 0 < n < 32 -> rotate_right x n = ror x n.
Proof.
  intros Hx Hn. unfold is_word, rotate_right, ror, wshl, wshr, as_u32 in *.
  rewrite Z.shiftl_mul_pow2, Z.shiftr_div_pow2 by lia.
  rewrite mul_pow_mod by lia. replace (32 - (32 - n)) with n by lia.
  rewrite Z.lor_comm, Z.add_comm. apply lor_high_low; [lia|].
  split; [apply Z.div_pos; lia|]. apply Z.div_lt_upper_bound; [lia|].
  rewrite <- Z.pow_add_r by lia. replace (n + (32 - n)) with 32 by lia. lia.
Qed.

Lemma wadd_word a b : is_word (wadd a b).
Proof. unfold is_word, wadd. apply Z.mod_pos_bound. lia. Qed.

Lemma as_u32_word a : is_word (as_u32 a).
Proof. unfold is_word, as_u32. apply Z.mod_pos_bound. lia. Qed.

Lemma log2_word x n : 0 <= n -> 0 <= x < 2 ^ n -> x = 0 \/ Z.log2 x < n.
Proof. intros Hn H. destruct (Z.eq_dec x 0); [left; assumption|right]. apply Z.log2_lt_pow2; lia. Qed.

Lemma pow2_bound_bits x n : 0 <= n -> 0 <= x -> (forall i, n <= i -> Z.testbit x i = false) -> x < 2 ^ n.
Proof.
  intros Hn Hx Hb.
  replace x with (x mod 2 ^ n); [apply Z.mod_pos_bound; lia|].
  apply Z.bits_inj'. intros i Hi. destruct (Z.ltb_spec i n).
  - apply Z.mod_pow2_bits_low. lia.
  - rewrite Z.mod_pow2_bits_high by lia. symmetry. apply Hb. lia.
Qed.

Lemma bits_above x n i : 0 <= x < 2 ^ n -> 0 <= n <= i -> Z.testbit x i = false.
Proof. intros Hx Hi. rewrite <- (Z.mod_small x (2 ^ n)) by lia. apply Z.mod_pow2_bits_high. lia. Qed.

Lemma lxor_range a b n : 0 <= n -> 0 <= a < 2 ^ n -> 0 <= b < 2 ^ n -> 0 <= Z.lxor a b < 2 ^ n.
Proof.
  intros Hn Ha Hb. assert (0 <= Z.lxor a b) by (apply Z.lxor_nonneg; lia). split; [assumption|].
  apply pow2_bound_bits; auto. intros i Hi. rewrite Z.lxor_spec.
  rewrite (bits_above a n), (bits_above b n) by lia. reflexivity.
Qed.
Lemma lor_range a b n : 0 <= n -> 0 <= a < 2 ^ n -> 0 <= b < 2 ^ n -> 0 <= Z.lor a b < 2 ^ n.
Proof.
  intros Hn Ha Hb. assert (0 <= Z.lor a b) by (apply Z.lor_nonneg; lia). split; [assumption|].
  apply pow2_bound_bits; auto. intros i Hi. rewrite Z.lor_spec.
  rewrite (bits_above a n), (bits_above b n) by lia. reflexivity.
Qed.
Lemma land_range a b n : 0 <= n -> 0 <= a < 2 ^ n -> 0 <= b -> 0 <= Z.land a b < 2 ^ n.
Proof.
  intros Hn Ha Hb. assert (0 <= Z.land a b) by (apply Z.land_nonneg; lia). split; [assumption|].
  apply pow2_bound_bits; auto. intros i Hi. rewrite Z.land_spec.
  rewrite (bits_above a n) by lia. reflexivity.
Qed.

Lemma lxor_word a b : is_word a -> is_word b -> is_word (Z.lxor a b).
Proof. apply lxor_range. lia. Qed.
Lemma land_word a b : is_word a -> is_word b -> is_word (Z.land a b).
Proof. intros Ha Hb. apply land_range; [lia|exact Ha|apply Hb]. Qed.

Lemma rol_word x n : is_word x -> 0 < n < 32 -> is_word (rotate_left x n).
Proof.
  intros Hx Hn. unfold rotate_left. apply lor_range; [lia|apply as_u32_word|].
  unfold wshr. rewrite Z.shiftr_div_pow2 by lia. unfold is_word in Hx.
  split; [apply Z.div_pos; lia|]. eapply Z.le_lt_trans; [|apply Hx].
  apply Z.div_le_upper_bound; [lia|]. nia.
Qed.
Lemma ror_word x n : is_word x -> 0 < n < 32 -> is_word (rotate_right x n).
Proof.
  intros Hx Hn. unfold rotate_right. apply lor_range; [lia| |apply as_u32_word].
  unfold wshr. rewrite Z.shiftr_div_pow2 by lia. unfold is_word in Hx.
  split; [apply Z.div_pos; lia|]. eapply Z.le_lt_trans; [|apply Hx].
  apply Z.div_le_upper_bound; [lia|]. nia.
Qed.
Lemma wshr_word x n : is_word x -> 0 <= n -> is_word (wshr x n).
Proof.
  intros Hx Hn. unfold wshr. rewrite Z.shiftr_div_pow2 by lia. unfold is_word in *.
  assert (0 < 2 ^ n) by (apply Z.pow_pos_nonneg; lia).
  split; [apply Z.div_pos; lia|]. eapply Z.le_lt_trans; [|apply Hx].
  apply Z.div_le_upper_bound; nia.
Qed.

Lemma wnot_sub x : is_word x -> wnot x = 2 ^ 32 - 1 - x.
Proof.
  intros Hx. unfold wnot, is_word in *.
  assert (E : Z.lxor x (2 ^ 32 - 1) + x = 2 ^ 32 - 1).
  { rewrite Z.add_nocarry_lxor.
    - rewrite Z.lxor_comm, <- Z.lxor_assoc, Z.lxor_nilpotent, Z.lxor_0_l. reflexivity.
    - apply Z.bits_inj'. intros i Hi. rewrite Z.land_spec, Z.lxor_spec, Z.bits_0.
      destruct (Z.ltb_spec i 32).
      + change (2 ^ 32 - 1) with (Z.ones 32). rewrite Z.ones_spec_low by lia. destruct (Z.testbit x i); reflexivity.
      + rewrite (bits_above x 32) by lia. apply andb_false_r. }
  lia.
Qed.
Lemma wnot_word x : is_word x -> is_word (wnot x).
Proof. intros H. rewrite wnot_sub by assumption. unfold is_word in *. lia. Qed.

Lemma ck_ok m w x : 0 <= x < 2 ^ w -> ck m w x = Ok x.
Proof.
  intros H. unfold ck. replace ((0 <=? x) && (x <? 2 ^ w)) with true; [reflexivity|].
  symmetry. apply andb_true_intro. lia.
Qed.

(** reading words *)
Lemma chunks4_nth (bs : bytes) j : (4 * j + 3 < length bs)%nat ->
  nth j (chunks 4 bs) [] = [nth (4 * j) bs x00; nth (4 * j + 1) bs x00; nth (4 * j + 2) bs x00; nth (4 * j + 3) bs x00].
Proof.
  revert bs. induction j as [|j IH]; intros bs H.
  - destruct bs as [|a [|b [|c [|d bs]]]]; cbn [length] in H; try lia.
    rewrite chunks_cons by (lia || discriminate). reflexivity.
  - rewrite chunks_cons by (lia || (destruct bs; [cbn in H; lia|discriminate])).
    cbn [nth]. rewrite IH by (rewrite skipn_length; lia).
    destruct bs as [|a [|b [|c [|d bs]]]]; cbn [length] in H; try lia.
    cbn [skipn].
    replace (4 * S j)%nat with (4 + 4 * j)%nat by lia. reflexivity.
Qed.

Lemma chunks_length {A} k (l : list A) : (0 < k)%nat -> (length l mod k = 0)%nat -> length (chunks k l) = (length l / k)%nat.
Proof.
  intros Hk. induction l as [|l Hl IH] using (chunks_ind k Hk); intros Hm.
  - cbn. rewrite Nat.div_0_l by lia. reflexivity.
  - assert (HL : (k <= length l)%nat).
    { destruct (Nat.lt_ge_cases (length l) k) as [H|H]; auto.
      rewrite Nat.mod_small in Hm by assumption. destruct l; [contradiction|cbn in Hm; lia]. }
    apply Nat.mod_divide in Hm; [|lia]. destruct Hm as [q Hq].
    rewrite chunks_cons by assumption. cbn [length]. rewrite IH.
    + rewrite skipn_length, Hq. rewrite Nat.div_mul by lia.
      replace (q * k - k)%nat with ((q - 1) * k)%nat by nia. rewrite Nat.div_mul by lia. nia.
    + rewrite skipn_length. apply Nat.mod_divide; [lia|]. exists (q - 1)%nat. nia.
Qed.

Lemma read_u32_le_length bs : (length bs mod 4 = 0)%nat -> length (read_u32_le bs) = (length bs / 4)%nat.
Proof. intros H. unfold read_u32_le. rewrite map_length. apply chunks_length; [lia|assumption]. Qed.
Lemma read_u32_be_length bs : (length bs mod 4 = 0)%nat -> length (read_u32_be bs) = (length bs / 4)%nat.
Proof. intros H. unfold read_u32_be. rewrite map_length. apply chunks_length; [lia|assumption]. Qed.

Lemma read_u32_le_nth bs j : (4 * j + 3 < length bs)%nat -> nth j (read_u32_le bs) 0 = word_le bs j.
Proof.
  intros H. unfold read_u32_le. change 0 with (le_val []). rewrite map_nth, chunks4_nth by assumption.
  unfold word_le, byte_at. cbn [le_val]. lia.
Qed.
Lemma read_u32_be_nth bs j : (4 * j + 3 < length bs)%nat -> nth j (read_u32_be bs) 0 = word_be bs j.
Proof.
  intros H. unfold read_u32_be. change 0 with (be_val []). rewrite map_nth, chunks4_nth by assumption.
  unfold word_be, byte_at, be_val. cbn [be_val_acc]. lia.
Qed.

Lemma word_le_word bs j : is_word (word_le bs j).
Proof.
  unfold is_word, word_le, byte_at.
  pose proof (b2z_range (nth (4 * j) bs x00)). pose proof (b2z_range (nth (4 * j + 1) bs x00)).
  pose proof (b2z_range (nth (4 * j + 2) bs x00)). pose proof (b2z_range (nth (4 * j + 3) bs x00)). lia.
Qed.
Lemma word_be_word bs j : is_word (word_be bs j).
Proof.
  unfold is_word, word_be, byte_at.
  pose proof (b2z_range (nth (4 * j) bs x00)). pose proof (b2z_range (nth (4 * j + 1) bs x00)).
  pose proof (b2z_range (nth (4 * j + 2) bs x00)). pose proof (b2z_range (nth (4 * j + 3) bs x00)). lia.
Qed.
