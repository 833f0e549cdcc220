(** C110: extended messages, HMAC, the message schedule. *)
From Verif Require Import Spec_Collide M_Sha2 M_Prf P_Util P_Sha2 P_Prf P_Collide.
From Coq Require Import ZifyBool ZifyNat ZifyN.
Local Open Scope list_scope.
Local Open Scope Z_scope.
#[local] Opaque K_frac H_frac sched sha_compress.

(** ** Extended messages *)
Lemma value_hash H : eight_words H -> value_of (hash_bytes H) = H.
Proof.
  destruct H as [[[[[[[a b] c] d] e] f] g] h]. intros (A & B & C & D & E & F & G & I). unfold value_of, hash_bytes.
  assert (J : forall x p, is_word x -> be_val (firstn 4 (be 4 x ++ p)) = x).
  { intros x p Hx. rewrite firstn_app, firstn_all2, be_length by (rewrite be_length; lia). rewrite Nat.sub_diag, firstn_O, app_nil_r, be_val_be. apply Z.mod_small, Hx. }
  assert (J' : forall x, is_word x -> be_val (firstn 4 (be 4 x)) = x) by (intros x Hx; rewrite <- (app_nil_r (be 4 x)); apply J, Hx).
  assert (S4 : forall x p k, skipn (4 + k) (be 4 x ++ p) = skipn k p).
  { intros x p k. rewrite skipn_app, skipn_all2, be_length by (rewrite be_length; lia). cbn [app]. f_equal. lia. }
  change (4 * 0)%nat with 0%nat. change (4 * 1)%nat with (4 + 0)%nat. change (4 * 2)%nat with (4 + (4 + 0))%nat. change (4 * 3)%nat with (4 + (4 + (4 + 0)))%nat.
  change (4 * 4)%nat with (4 + (4 + (4 + (4 + 0))))%nat. change (4 * 5)%nat with (4 + (4 + (4 + (4 + (4 + 0)))))%nat. change (4 * 6)%nat with (4 + (4 + (4 + (4 + (4 + (4 + 0))))))%nat.
  change (4 * 7)%nat with (4 + (4 + (4 + (4 + (4 + (4 + (4 + 0)))))))%nat. rewrite !S4. rewrite !skipn_O. rewrite !J, J' by assumption. reflexivity.
Qed.
Lemma chain_prefix p t n : (64 * n <= length p)%nat -> chain (p ++ t) n = chain p n.
Proof.
  induction n as [|n IH]; intros L; [reflexivity|]. cbn [chain]. rewrite IH by lia. f_equal.
  rewrite skipn_app, firstn_app, skipn_length. replace (64 - (length p - 64 * n))%nat with 0%nat by lia. rewrite firstn_O. apply app_nil_r.
Qed.
Lemma chain_tail p t q n : length p = (64 * q)%nat ->
  chain (p ++ t) (q + n) = fold_left (fun v i => sha_compress (firstn 64 (skipn (64 * i) t)) v) (seq 0 n) (chain p q).
Proof.
  intros L. induction n as [|n IH]; [rewrite Nat.add_0_r; apply chain_prefix; lia|]. rewrite Nat.add_succ_r, seq_S, fold_left_app, <- IH. cbn [chain fold_left Nat.add]. f_equal. f_equal.
  rewrite skipn_app, skipn_all2 by lia. cbn [app]. f_equal. lia.
Qed.
Lemma pad_zeros_shift q n : pad_zeros (64 * q + n) = pad_zeros n.
Proof. unfold pad_zeros. rewrite (Nat.mul_comm 64 q), Nat.add_comm, Nat.mod_add by lia. reflexivity. Qed.
Lemma pad_of_pad a x : fips_pad (fips_pad a ++ x) = fips_pad a ++ x ++ [x80] ++ zeros (pad_zeros (length x)) ++ be 8 (8 * (zlen (fips_pad a) + zlen x)).
Proof. unfold fips_pad at 1. rewrite app_length, blocks_length, pad_zeros_shift, zlen_app, <- app_assoc. reflexivity. Qed.
Theorem extension m a x h : zlen (fips_pad a ++ x) < 2 ^ 61 -> sha256 m a = Ok h -> sha256 m (fips_pad a ++ x) = Ok (extend_hash h (zlen (fips_pad a)) x).
Proof.
  intros L E. assert (La : zlen a < 2 ^ 61) by (rewrite zlen_app in L; pose proof (zlen_nonneg x); unfold fips_pad in L; rewrite !zlen_app in L; pose proof (zlen_nonneg (zeros (pad_zeros (length a)))); pose proof (zlen_nonneg (be 8 (8 * zlen a))); change (zlen [x80]) with 1 in L; lia).
  rewrite sha256_spec in E by exact La. injection E as <-. rewrite sha256_spec by exact L. f_equal. rewrite !SHA256_hash. unfold extend_hash. rewrite value_hash by apply chain_words. f_equal.
  unfold go_on. pose proof (blocks_length a) as P. pose proof (blocks_length (fips_pad a ++ x)) as Q. rewrite <- (chain_tail (fips_pad a) _ (sha_blocks a) _ P), <- pad_of_pad. f_equal.
  rewrite pad_of_pad, app_length, P in Q. set (t := x ++ _) in *. replace (length t) with ((sha_blocks (fips_pad a ++ x) - sha_blocks a) * 64)%nat by lia. rewrite Nat.div_mul by lia. lia.
Qed.

(** ** HMAC *)
Lemma HMAC_outer K text : HMAC K text = SHA256 (outer_text K text).
Proof. reflexivity. Qed.
Lemma bxor_inj a x y : bxor a x = bxor a y -> x = y.
Proof. intros E. apply (f_equal (bxor a)) in E. rewrite !bxor_assoc, bxor_nilpotent, !bxor_0_l in E. exact E. Qed.
Lemma map_bxor_inj a l l' : map (bxor a) l = map (bxor a) l' -> l = l'.
Proof. revert l'. induction l as [|x l IH]; intros [|y l'] E; try discriminate E; [reflexivity|]. cbn [map] in E. injection E as E1 E2. rewrite (bxor_inj _ _ _ E1), (IH _ E2). reflexivity. Qed.
Lemma hmac_key_short K : (length K <= 64)%nat -> hmac_key K = K ++ zeros (64 - length K) /\ length (hmac_key K) = 64%nat.
Proof.
  intros L. unfold hmac_key. destruct (Nat.ltb_spec 64 (length K)); [lia|]. split; [reflexivity|]. unfold zeros. rewrite app_length, repeat_length. lia.
Qed.
Lemma hmac_key_inj K K' : (length K <= 64)%nat -> length K = length K' -> hmac_key K = hmac_key K' -> K = K'.
Proof.
  intros L E H. destruct (hmac_key_short K L) as [-> _] in H. destruct (hmac_key_short K' ltac:(lia)) as [X _]. rewrite X in H. apply app_inj_length in H; [apply H|exact E].
Qed.
Theorem hmac_collides m K a K' b t : (length K <= 64)%nat -> length K = length K' -> zlen a + 64 < 2 ^ 61 -> zlen b + 64 < 2 ^ 61 -> (K, a) <> (K', b) ->
  hmac_sha256 m K a = Ok t -> hmac_sha256 m K' b = Ok t -> collides (inner_text K a) (inner_text K' b) \/ collides (outer_text K a) (outer_text K' b).
Proof.
  intros LK EK La Lb N A B. rewrite hmac_spec in A by lia. rewrite hmac_spec in B by lia. injection A as A. injection B as B. rewrite <- B, !HMAC_outer in A. clear B t.
  destruct (hmac_key_short K LK) as [_ L1]. destruct (hmac_key_short K' ltac:(lia)) as [_ L2].
  assert (Li : forall k x, length (hmac_key k) = 64%nat -> zlen (inner_text k x) = zlen x + 64) by (intros k x L; unfold inner_text; rewrite zlen_app; unfold zlen at 1; rewrite map_length, L; lia).
  assert (Lo : forall k x, length (hmac_key k) = 64%nat -> zlen (outer_text k x) = 96) by (intros k x L; unfold outer_text, zlen; rewrite app_length, map_length, L, SHA256_length; reflexivity).
  assert (N1 : inner_text K a <> inner_text K' b).
  { intros E. unfold inner_text in E. apply app_inj_length in E; [|rewrite !map_length; congruence]. destruct E as [E ->]. apply map_bxor_inj in E. apply N. rewrite (hmac_key_inj K K' LK EK E). reflexivity. }
  destruct (list_eq_dec Byte.byte_eq_dec (SHA256 (inner_text K a)) (SHA256 (inner_text K' b))) as [E|E].
  - left. apply hash_collides; [rewrite Li by assumption; lia..|exact N1|exact E].
  - right. apply hash_collides; [rewrite Lo by assumption; lia..| |exact A]. intros X. apply E. unfold outer_text in X. apply app_inj_length in X; [apply X|rewrite !map_length; congruence].
Qed.
Lemma padded_key : exists K K', K <> K' /\ (length K <= 64)%nat /\ (length K' <= 64)%nat /\ forall m text, zlen text + 64 < 2 ^ 61 -> exists t, hmac_sha256 m K text = Ok t /\ hmac_sha256 m K' text = Ok t.
Proof.
  exists [x01], [x01; x00]. split; [discriminate|]. split; [cbn; lia|]. split; [cbn; lia|]. intros m text L. exists (HMAC [x01] text). rewrite !hmac_spec by (exact L || (cbn; lia)). split; reflexivity.
Qed.

(** ** The schedule *)
Lemma word_be_block blk blk' : length blk = 64%nat -> length blk' = 64%nat -> (forall t, (t < 16)%nat -> word_be blk t = word_be blk' t) -> blk = blk'.
Proof.
  intros L L' H. apply (nth_ext _ _ x00 x00); [congruence|]. intros i Hi. rewrite L in Hi.
  pose proof (H (i / 4)%nat ltac:(apply Nat.div_lt_upper_bound; lia)) as E. unfold word_be, byte_at in E.
  pose proof (Nat.div_mod i 4 ltac:(lia)) as Di. pose proof (Nat.mod_upper_bound i 4 ltac:(lia)) as Mi. set (q := (i / 4)%nat) in *. set (r := (i mod 4)%nat) in *.
  pose proof (b2z_range (nth (4 * q) blk x00)). pose proof (b2z_range (nth (4 * q + 1) blk x00)). pose proof (b2z_range (nth (4 * q + 2) blk x00)). pose proof (b2z_range (nth (4 * q + 3) blk x00)).
  pose proof (b2z_range (nth (4 * q) blk' x00)). pose proof (b2z_range (nth (4 * q + 1) blk' x00)). pose proof (b2z_range (nth (4 * q + 2) blk' x00)). pose proof (b2z_range (nth (4 * q + 3) blk' x00)).
  assert (r = 0 \/ r = 1 \/ r = 2 \/ r = 3)%nat as C by lia. rewrite Di. clear - E C H0 H1 H2 H3 H4 H5 H6 H7. apply b2z_inj.
  destruct C as [-> |[-> |[-> | -> ]]]; rewrite ?Nat.add_0_r; lia.
Qed.
#[local] Opaque W_ sigma0 sigma1.
Theorem schedule_inj blk blk' k : length blk = 64%nat -> length blk' = 64%nat -> (k <= 48)%nat -> (forall t, (k <= t < k + 16)%nat -> W_ blk t = W_ blk' t) -> blk = blk'.
Proof.
  intros L L'. induction k as [|k IH]; intros Hk H.
  - apply word_be_block; [exact L|exact L'|]. intros t Ht. rewrite <- !W_low by exact Ht. apply H. lia.
  - apply IH; [lia|]. intros t Ht. destruct (Nat.eq_dec t k) as [->|N]; [|apply H; lia].
    pose proof (H (k + 16)%nat ltac:(lia)) as E. rewrite (W_high blk), (W_high blk') in E by lia.
    rewrite (H (k + 16 - 2)%nat), (H (k + 16 - 7)%nat), (H (k + 16 - 15)%nat) in E by lia. replace (k + 16 - 16)%nat with k in E by lia.
    set (s := sigma1 _ + _ + _) in E. rewrite <- (undo (W_ blk k) s), <- (undo (W_ blk' k) s) by (apply W_word; lia). rewrite !(Z.add_comm _ s), E. reflexivity.
Qed.
Theorem sha_collides m a b h : zlen a < 2 ^ 61 -> zlen b < 2 ^ 61 -> a <> b -> sha256 m a = Ok h -> sha256 m b = Ok h -> collides a b.
Proof. intros La Lb N A B. rewrite sha256_spec in A by exact La. rewrite sha256_spec in B by exact Lb. injection A as A. injection B as B. apply hash_collides; try assumption. congruence. Qed.
Lemma same_no_collision a : ~ collides a a.
Proof. intros [[_ (i & _ & _ & N & _)]|[N _]]; apply N; reflexivity. Qed.
