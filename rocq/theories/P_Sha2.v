(** SHA-256: the model against FIPS 180-4. *)
From Verif Require Export M_Sha2 P_Word.
From Coq Require Import ZifyBool ZifyNat ZifyN.

(** ** Constants *)
Lemma icbrt_spec k n acc : 0 <= acc -> acc ^ 3 <= n < (acc + 2 ^ Z.of_nat k) ^ 3 ->
  let c := icbrt k n acc in acc <= c /\ c ^ 3 <= n < (c + 1) ^ 3.
Proof.
  revert acc. induction k as [|k IH]; intros acc Ha Hn; cbn [icbrt].
  - change (2 ^ Z.of_nat 0) with 1 in Hn. lia.
  - assert (Hp : 0 < 2 ^ Z.of_nat k) by (apply Z.pow_pos_nonneg; lia).
    rewrite Nat2Z.inj_succ, Z.pow_succ_r in Hn by lia.
    destruct (Z.leb_spec ((acc + 2 ^ Z.of_nat k) ^ 3) n).
    + cbv zeta. destruct (IH (acc + 2 ^ Z.of_nat k)) as (H1 & H2); [lia| |split; [lia|exact H2]].
      split; [assumption|]. replace (acc + 2 ^ Z.of_nat k + 2 ^ Z.of_nat k) with (acc + 2 * 2 ^ Z.of_nat k) by lia. lia.
    + apply IH; [assumption|lia].
Qed.

(** the 64 constants of the code are the FIPS ones *)
Lemma K256_spec : K256 = map K_frac (seq 0 64).
Proof. vm_compute. reflexivity. Qed.
Lemma INIT_spec : INIT_VECTOR = map H_frac (seq 0 8).
Proof. vm_compute. reflexivity. Qed.

Lemma nth_map_seq0 (f : nat -> Z) n i : (i < n)%nat -> nth i (map f (seq 0 n)) 0 = f i.
Proof.
  intros H. rewrite (nth_indep _ 0 (f 0%nat)) by (rewrite map_length, seq_length; exact H).
  rewrite map_nth, seq_nth by exact H. reflexivity.
Qed.
Lemma K256_nth t : (t < 64)%nat -> at_ K256 t = K_frac t.
Proof. intros H. unfold at_. rewrite K256_spec. apply nth_map_seq0. exact H. Qed.
Lemma K_frac_word t : is_word (K_frac t).
Proof. unfold K_frac, is_word. apply Z.mod_pos_bound. lia. Qed.
Lemma H_frac_word t : is_word (H_frac t).
Proof. unfold H_frac, is_word. apply Z.mod_pos_bound. lia. Qed.
#[local] Opaque K_frac H_frac K256 INIT_VECTOR.

(** ** Padding *)
Lemma pad_zeros_spec len : (pad_zeros len < 64)%nat /\ ((len + 1 + pad_zeros len) mod 64 = 56)%nat.
Proof.
  unfold pad_zeros. pose proof (Nat.mod_upper_bound len 64 ltac:(lia)).
  split; [apply Nat.mod_upper_bound; lia|].
  rewrite Nat.add_mod_idemp_r by lia.
  pose proof (Nat.div_mod len 64 ltac:(lia)) as E.
  remember (len mod 64)%nat as r. remember (len / 64)%nat as q.
  replace (len + 1 + (119 - r))%nat with (56 + (q + 1) * 64)%nat by lia.
  rewrite Nat.mod_add by lia. reflexivity.
Qed.
(** it is the least number of zero bytes that does *)
Lemma pad_zeros_least len z : ((len + 1 + z) mod 64 = 56)%nat -> (pad_zeros len <= z)%nat.
Proof.
  intros H. destruct (pad_zeros_spec len) as (Hl & Hp).
  destruct (Nat.le_gt_cases (pad_zeros len) z); [assumption|exfalso].
  pose proof (Nat.div_mod (len + 1 + z) 64 ltac:(lia)).
  pose proof (Nat.div_mod (len + 1 + pad_zeros len) 64 ltac:(lia)).
  rewrite H in *. rewrite Hp in *. lia.
Qed.

Lemma fips_pad_length msg : (length (fips_pad msg) mod 64 = 0)%nat.
Proof.
  unfold fips_pad, zeros. rewrite !app_length, repeat_length, be_length. cbn [length].
  destruct (pad_zeros_spec (length msg)) as (_ & H).
  replace (length msg + (1 + (pad_zeros (length msg) + 8)))%nat with (length msg + 1 + pad_zeros (length msg) + 8)%nat by lia.
  rewrite <- Nat.add_mod_idemp_l, H by lia. reflexivity.
Qed.

Lemma pad_len_model (msg : bytes) : Z.to_nat (Z.land ((64 - 8 - 1 - zlen msg) mod 2 ^ 64) 63) = pad_zeros (length msg).
Proof.
  change 63 with (Z.ones 6). rewrite Z.land_ones by lia.
  assert (E : ((64 - 8 - 1 - zlen msg) mod 2 ^ 64) mod 2 ^ 6 = Z.of_nat (pad_zeros (length msg))); [|rewrite E; lia].
  replace (((64 - 8 - 1 - zlen msg) mod 2 ^ 64) mod 2 ^ 6) with ((55 - zlen msg) mod 64).
  2:{ change (2 ^ 6) with 64. change (64 - 8 - 1) with 55. rewrite (Z.div_mod (55 - zlen msg) (2 ^ 64)) at 1 by lia.
      rewrite Z.add_comm.
      replace (2 ^ 64 * ((55 - zlen msg) / 2 ^ 64)) with ((2 ^ 58 * ((55 - zlen msg) / 2 ^ 64)) * 64) by lia.
      rewrite Z_mod_plus_full. reflexivity. }
  unfold pad_zeros, zlen.
  pose proof (Nat.div_mod (length msg) 64 ltac:(lia)) as En.
  pose proof (Nat.mod_upper_bound (length msg) 64 ltac:(lia)).
  rewrite Nat2Z.inj_mod. rewrite Nat2Z.inj_sub by lia.
  replace (55 - Z.of_nat (length msg)) with (Z.of_nat 119 - Z.of_nat (length msg mod 64) + (- Z.of_nat (length msg / 64) - 1) * 64) by lia.
  rewrite Z_mod_plus_full. reflexivity.
Qed.

Lemma len_bytes_be z : map (fun i => z2b (Z.shiftr z (8 * i))) [7; 6; 5; 4; 3; 2; 1; 0] = be 8 z.
Proof.
  cbn [map be]. rewrite !Z.shiftr_div_pow2 by lia.
  change (256 ^ Z.of_nat 7) with (2 ^ (8 * 7)). change (256 ^ Z.of_nat 6) with (2 ^ (8 * 6)).
  change (256 ^ Z.of_nat 5) with (2 ^ (8 * 5)). change (256 ^ Z.of_nat 4) with (2 ^ (8 * 4)).
  change (256 ^ Z.of_nat 3) with (2 ^ (8 * 3)). change (256 ^ Z.of_nat 2) with (2 ^ (8 * 2)).
  change (256 ^ Z.of_nat 1) with (2 ^ (8 * 1)). change (256 ^ Z.of_nat 0) with (2 ^ (8 * 0)). reflexivity.
Qed.

Lemma sha_pad_spec m msg : zlen msg < 2 ^ 61 -> sha_pad m msg = Ok (fips_pad msg).
Proof.
  intros H. unfold sha_pad. rewrite pad_len_model. pose proof (zlen_nonneg msg).
  rewrite ck_ok by lia. cbn [rbind]. rewrite len_bytes_be.
  replace (zlen msg * 8) with (8 * zlen msg) by lia. fold (fips_pad msg).
  replace (dassert m (zlen (fips_pad msg) mod 64 =? 0)) with (@Ok unit tt); [reflexivity|].
  pose proof (fips_pad_length msg) as E. unfold dassert, zlen.
  replace (Z.of_nat (length (fips_pad msg)) mod 64) with 0; [destruct m; reflexivity|].
  change 64 with (Z.of_nat 64). rewrite <- Nat2Z.inj_mod, E. reflexivity.
Qed.

Lemma app_inj_tail_length {A} (a b c d : list A) : length b = length d -> a ++ b = c ++ d -> a = c /\ b = d.
Proof.
  intros L H. assert (length a = length c) by (apply (f_equal (@length A)) in H; rewrite !app_length in H; lia).
  apply app_inj_length; assumption.
Qed.

(** distinct messages have distinct padded forms *)
Lemma fips_pad_inj a b : zlen a < 2 ^ 61 -> zlen b < 2 ^ 61 -> fips_pad a = fips_pad b -> a = b.
Proof.
  unfold fips_pad. intros Ha Hb H. pose proof (zlen_nonneg a). pose proof (zlen_nonneg b).
  rewrite !app_assoc in H. apply app_inj_tail_length in H; [|rewrite !be_length; reflexivity].
  destruct H as (H & HL). apply be_inj in HL; [|change (256 ^ Z.of_nat 8) with (2 ^ 64); lia|change (256 ^ Z.of_nat 8) with (2 ^ 64); lia].
  assert (E : length a = length b) by (unfold zlen in HL; lia).
  rewrite E, <- !app_assoc in H. apply app_inj_length in H; [|exact E]. apply H.
Qed.

(** ** Schedule *)
Lemma sched_length blk n : length (sched blk n) = n.
Proof. induction n as [|n IH]; cbn [sched]; [reflexivity|]. rewrite app_length, IH. cbn. lia. Qed.
Lemma sched_prefix blk n k t : (t < n)%nat -> (n <= k)%nat -> nth t (sched blk k) 0 = nth t (sched blk n) 0.
Proof.
  intros Ht Hk. induction k as [|k IH]; [lia|].
  destruct (Nat.eq_dec n (S k)) as [->|]; [reflexivity|].
  cbn [sched]. cbv zeta. rewrite app_nth1 by (rewrite sched_length; lia). apply IH. lia.
Qed.
Lemma W_eq blk n t : (t < n)%nat -> (n <= 64)%nat -> nth t (sched blk n) 0 = W_ blk t.
Proof. intros Ht Hn. unfold W_. symmetry. apply sched_prefix; assumption. Qed.

(** FIPS 180-4 6.2.2 step 1, as printed *)
Lemma W_low blk t : (t < 16)%nat -> W_ blk t = word_be blk t.
Proof.
  intros H. unfold W_. rewrite (sched_prefix blk (S t)) by lia. cbn [sched]. cbv zeta.
  rewrite app_nth2, sched_length, Nat.sub_diag by (rewrite sched_length; lia).
  destruct (Nat.ltb_spec t 16); [reflexivity|lia].
Qed.
Lemma W_high blk t : (16 <= t < 64)%nat ->
  W_ blk t = (sigma1 (W_ blk (t - 2)) + W_ blk (t - 7) + sigma0 (W_ blk (t - 15)) + W_ blk (t - 16)) mod 2 ^ 32.
Proof.
  intros H. unfold W_ at 1. rewrite (sched_prefix blk (S t)) by lia. cbn [sched]. cbv zeta.
  rewrite app_nth2, sched_length, Nat.sub_diag by (rewrite sched_length; lia).
  destruct (Nat.ltb_spec t 16); [lia|]. cbn [nth]. rewrite !(W_eq blk t) by lia. reflexivity.
Qed.
Lemma W_word blk t : (t < 64)%nat -> is_word (W_ blk t).
Proof.
  intros H. destruct (Nat.lt_ge_cases t 16).
  - rewrite W_low by assumption. apply word_be_word.
  - rewrite W_high by lia. unfold is_word. apply Z.mod_pos_bound. lia.
Qed.
#[local] Opaque W_.

Lemma wshr_div x n : 0 <= n -> wshr x n = x / 2 ^ n.
Proof. intros H. unfold wshr. apply Z.shiftr_div_pow2. exact H. Qed.

Lemma wadd_mod_l x y : wadd (x mod 2 ^ 32) y = (x + y) mod 2 ^ 32.
Proof. unfold wadd. apply Zplus_mod_idemp_l. Qed.
Lemma wadd4 a b c d : wadd (wadd (wadd a b) c) d = (a + b + c + d) mod 2 ^ 32.
Proof. unfold wadd at 3. rewrite !wadd_mod_l. reflexivity. Qed.
Lemma wadd5 a b c d e : wadd (wadd (wadd (wadd a b) c) d) e = (a + b + c + d + e) mod 2 ^ 32.
Proof. unfold wadd at 4. rewrite !wadd_mod_l. reflexivity. Qed.

Lemma sched_step_inv blk w j : (16 <= j < 64)%nat -> length w = 64%nat ->
  (forall t, (t < j)%nat -> nth t w 0 = W_ blk t) ->
  length (sched_step w j) = 64%nat /\ (forall t, (t < S j)%nat -> nth t (sched_step w j) 0 = W_ blk t).
Proof.
  intros Hj L H. unfold sched_step, at_. split; [rewrite upd_length; exact L|].
  intros t Ht. destruct (Nat.eq_dec t j) as [->|N].
  - rewrite upd_nth_same by lia. rewrite !H by lia.
    rewrite !rotate_right_ror by ((apply W_word; lia) || lia). rewrite !wshr_div by lia.
    fold (sigma0 (W_ blk (j - 15))). fold (sigma1 (W_ blk (j - 2))).
    rewrite wadd4, (W_high blk j) by lia. apply (f_equal (fun x => x mod 2 ^ 32)). ring.
  - rewrite upd_nth_other by congruence. apply H. lia.
Qed.

Lemma schedule_spec blk : length blk = 64%nat -> forall t, (t < 64)%nat -> nth t (schedule blk) 0 = W_ blk t.
Proof.
  intros L. unfold schedule.
  assert (LR : length (read_u32_be blk) = 16%nat) by (rewrite read_u32_be_length; rewrite L; reflexivity).
  enough (G : forall k, (k <= 48)%nat ->
     let w := fold_left sched_step (seq 16 k) (read_u32_be blk ++ repeat 0 48) in
     length w = 64%nat /\ forall t, (t < 16 + k)%nat -> nth t w 0 = W_ blk t).
  { intros t Ht. apply (G 48%nat); lia. }
  induction k as [|k IH]; intros Hk.
  - cbn [seq fold_left]. cbv zeta. split; [rewrite app_length, repeat_length, LR; reflexivity|].
    intros t Ht. rewrite app_nth1 by lia. rewrite read_u32_be_nth by lia. symmetry. apply W_low. lia.
  - rewrite seq_S, fold_left_app. cbn [fold_left].
    destruct IH as (IL & IH); [lia|]. cbv zeta.
    destruct (sched_step_inv blk _ (16 + k) ltac:(lia) IL IH) as (HL & HS).
    split; [exact HL|]. intros t Ht. apply HS. lia.
Qed.

(** ** Rounds *)
Definition tup (s : vars) : eight :=
  let '(Vars a b c d e f g h) := s in (a, b, c, d, e, f, g, h).
Definition words8 (H : eight) : Prop :=
  let '(a, b, c, d, e, f, g, h) := H in
  is_word a /\ is_word b /\ is_word c /\ is_word d /\ is_word e /\ is_word f /\ is_word g /\ is_word h.

Lemma sha_round_spec blk w s t : (t < 64)%nat -> nth t w 0 = W_ blk t -> words8 (tup s) ->
  words8 (tup (sha_round w s t)) /\
  tup (sha_round w s t) =
    (let '(a, b, c, d, e, f, g, h) := tup s in
      let T1 := (h + Sigma1 e + Ch e f g + K_frac t + W_ blk t) mod 2 ^ 32 in
      let T2 := (Sigma0 a + Maj a b c) mod 2 ^ 32 in
      (add32s T1 T2, a, b, c, add32s d T1, e, f, g)).
Proof.
  intros Ht Hw. destruct s as [a b c d e f g h]. cbn [tup words8].
  intros (Wa & Wb & Wc & Wd & We & Wf & Wg & Wh). unfold sha_round. cbv zeta. cbn [tup words8].
  split; [auto 10 using wadd_word|].
  rewrite !rotate_right_ror by (assumption || lia). rewrite wnot_sub by assumption.
  fold (Sigma0 a). fold (Sigma1 e). fold (Ch e f g). fold (Maj a b c).
  rewrite K256_nth by assumption. unfold at_. rewrite Hw, (wadd5 h (Sigma1 e)). reflexivity.
Qed.

Lemma rounds_spec blk w s : (forall t, (t < 64)%nat -> nth t w 0 = W_ blk t) -> words8 (tup s) ->
  forall n, (n <= 64)%nat -> words8 (tup (fold_left (sha_round w) (seq 0 n) s)) /\
                         tup (fold_left (sha_round w) (seq 0 n) s) = rounds blk (tup s) n.
Proof.
  intros Hw Hs. induction n as [|n IH]; intros Hn; [split; [exact Hs|reflexivity]|].
  destruct IH as (IW & IE); [lia|].
  rewrite seq_S, fold_left_app. cbn [fold_left rounds]. rewrite Nat.add_0_l.
  destruct (sha_round_spec blk w _ n ltac:(lia) (Hw n ltac:(lia)) IW) as (RW & RE).
  split; [exact RW|]. rewrite RE, IE. reflexivity.
Qed.

Definition tup8 (l : list Z) : eight :=
  (at_ l 0, at_ l 1, at_ l 2, at_ l 3, at_ l 4, at_ l 5, at_ l 6, at_ l 7).

Lemma sha_block_spec val blk : length blk = 64%nat -> words8 (tup8 val) ->
  length (sha_block val blk) = 8%nat /\ words8 (tup8 (sha_block val blk)) /\
  tup8 (sha_block val blk) = sha_compress blk (tup8 val).
Proof.
  intros L W. unfold sha_block. cbv zeta.
  pose proof (rounds_spec blk (schedule blk)
    (Vars (at_ val 0) (at_ val 1) (at_ val 2) (at_ val 3) (at_ val 4) (at_ val 5) (at_ val 6) (at_ val 7))
    (schedule_spec blk L) W 64 (le_n 64)) as (RW & RE).
  change (tup _) with (tup8 val) in RE at 2.
  unfold sha_compress. rewrite <- RE. clear RE RW.
  destruct (fold_left _ _ _) as [a b c d e f g h]. cbn [tup va vb vc vd ve vf vg vh].
  split; [reflexivity|].
  change (tup8 val) with (at_ val 0, at_ val 1, at_ val 2, at_ val 3, at_ val 4, at_ val 5, at_ val 6, at_ val 7).
  cbv beta iota.
  match goal with |- words8 (tup8 [?x0; ?x1; ?x2; ?x3; ?x4; ?x5; ?x6; ?x7]) /\ _ =>
    change (tup8 [x0; x1; x2; x3; x4; x5; x6; x7]) with (x0, x1, x2, x3, x4, x5, x6, x7) end.
  cbn [words8]. split; [auto 10 using wadd_word|]. unfold add32s, wadd.
  repeat match goal with |- (_, _) = (_, _) => apply f_equal2 end; f_equal; apply Z.add_comm.
Qed.

(** ** Chaining *)
Lemma chunks_map {A} k (l : list A) : (0 < k)%nat ->
  chunks k l = map (fun i => firstn k (skipn (k * i) l)) (seq 0 ((length l + (k - 1)) / k)).
Proof.
  intros Hk. induction l as [|l Hl IH] using (chunks_ind k Hk).
  - cbn [length Nat.add]. rewrite Nat.div_small by lia. reflexivity.
  - rewrite chunks_cons by assumption.
    assert (0 < length l)%nat by (destruct l; [contradiction|cbn; lia]).
    replace ((length l + (k - 1)) / k)%nat with (S ((length (skipn k l) + (k - 1)) / k)).
    + cbn [seq map]. rewrite Nat.mul_0_r. cbn [skipn]. f_equal.
      rewrite IH, <- seq_shift, map_map. apply map_ext. intros i.
      f_equal. rewrite Nat.mul_succ_r, Nat.add_comm. clear. revert l.
      induction k as [|k IHk]; intros l; [reflexivity|].
      generalize (S k * i)%nat. intros n. revert n l. clear.
      assert (G : forall j n (l : list A), skipn n (skipn j l) = skipn (j + n) l).
      { induction j as [|j IHj]; intros n l; [reflexivity|]. destruct l; [rewrite !skipn_nil; reflexivity|]. cbn [skipn Nat.add]. apply IHj. }
      intros n l. apply G.
    + rewrite skipn_length. destruct (Nat.le_gt_cases k (length l)).
      * replace (length l + (k - 1))%nat with ((length l - k + (k - 1)) + 1 * k)%nat by lia.
        rewrite Nat.div_add by lia. lia.
      * replace (length l - k)%nat with 0%nat by lia. rewrite (Nat.div_small (0 + (k - 1))) by lia.
        replace (length l + (k - 1))%nat with ((length l - 1) + 1 * k)%nat by lia.
        rewrite Nat.div_add by lia. rewrite Nat.div_small by lia. reflexivity.
Qed.

Lemma INIT_tup : tup8 INIT_VECTOR = H0.
Proof. rewrite INIT_spec. reflexivity. Qed.
Lemma H0_words : words8 H0.
Proof. unfold H0, words8. auto 10 using H_frac_word. Qed.

Lemma chain_spec p n : (64 * n <= length p)%nat ->
  let v := fold_left sha_block (map (fun i => firstn 64 (skipn (64 * i) p)) (seq 0 n)) INIT_VECTOR in
  length v = 8%nat /\ words8 (tup8 v) /\ tup8 v = chain p n.
Proof.
  induction n as [|n IH]; intros Hn; cbv zeta.
  - cbn [seq map fold_left chain]. split; [rewrite INIT_spec; reflexivity|].
    rewrite INIT_tup. split; [exact H0_words|reflexivity].
  - rewrite seq_S, map_app, fold_left_app. cbn [map fold_left chain]. rewrite Nat.add_0_l.
    destruct IH as (IL & IW & IE); [lia|].
    rewrite <- IE. apply sha_block_spec; [|exact IW]. rewrite firstn_length, skipn_length. lia.
Qed.

Lemma sha256_spec m msg : zlen msg < 2 ^ 61 -> sha256 m msg = Ok (SHA256 msg).
Proof.
  intros H. unfold sha256. rewrite sha_pad_spec by exact H. cbn [rbind]. f_equal.
  unfold SHA256. pose proof (fips_pad_length msg) as L. set (p := fips_pad msg) in *. cbv zeta.
  rewrite chunks_map by lia.
  assert (E : ((length p + (64 - 1)) / 64 = length p / 64)%nat).
  { apply Nat.mod_divide in L; [|lia]. destruct L as (q & ->). rewrite Nat.div_mul by lia.
    rewrite Nat.add_comm, Nat.div_add by lia. reflexivity. }
  rewrite E.
  destruct (chain_spec p (length p / 64)) as (VL & VW & VE); [apply Nat.mul_div_le; lia|].
  rewrite <- VE. set (v := fold_left _ _ _) in *. clearbody v.
  do 9 (destruct v as [|? v]; [discriminate VL || idtac|]); try discriminate VL.
  unfold tup8, at_. cbn [nth]. unfold write_u32_be. cbn [map concat]. rewrite app_nil_r. reflexivity.
Qed.

Lemma SHA256_length msg : length (SHA256 msg) = 32%nat.
Proof.
  unfold SHA256. cbv zeta. destruct (chain _ _) as [[[[[[[? ?] ?] ?] ?] ?] ?] ?].
  rewrite !app_length, !be_length. reflexivity.
Qed.

(** messages of 2^61 bytes and more: the bit length does not fit *)
Lemma sha256_too_long msg : 2 ^ 61 <= zlen msg -> sha256 Debug msg = Panic.
Proof.
  intros H. unfold sha256, sha_pad. rewrite pad_len_model. cbv zeta. unfold ck.
  replace ((0 <=? zlen msg * 8) && (zlen msg * 8 <? 2 ^ 64)) with false; [reflexivity|].
  symmetry. apply andb_false_intro2. lia.
Qed.
