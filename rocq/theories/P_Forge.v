(** How many one-time keys a forgery against Poly1305 works for: roots of polynomials modulo the prime 2^130 - 5. *)
From Verif Require Export Spec_Forge P_Aead NT_P1305.
From Coq Require Import ZifyBool ZifyNat ZifyN Znumtheory.
#[local] Opaque chacha20_block.

(** ** polynomials with integer coefficients, the constant first *)
Fixpoint pval (l : list Z) (x : Z) : Z := match l with [] => 0 | c :: t => c + x * pval t x end.
Fixpoint quot_at (a : Z) (t : list Z) : list Z := match t with [] => [] | d :: u => pval t a :: quot_at a u end.
Lemma quot_at_length a t : length (quot_at a t) = length t.
Proof. induction t; cbn; congruence. Qed.
Lemma quot_at_val a x t : x * pval t x - a * pval t a = (x - a) * pval (quot_at a t) x.
Proof.
  induction t as [|d u IH]; cbn [pval quot_at]; [ring|].
  transitivity ((x - a) * (d + a * pval u a) + x * (x * pval u x - a * pval u a)); [ring|]. rewrite IH. ring.
Qed.
Lemma pval_zero p l a : 0 < p -> Forall (fun c => (p | c)) l -> (p | pval l a).
Proof.
  intros P. induction 1 as [|c l D _ IH]; cbn; [apply Z.divide_0_r|].
  apply Z.divide_add_r; [exact D|apply Z.divide_mul_r; exact IH].
Qed.
Lemma quot_at_zero p a t : 0 < p -> Forall (fun c => (p | c)) (quot_at a t) -> Forall (fun c => (p | c)) t.
Proof.
  intros P. induction t as [|d u IH]; intros H; [constructor|]. cbn in H. inversion_clear H as [|? ? D T].
  specialize (IH T). constructor; [|exact IH].
  replace d with ((d + a * pval u a) - a * pval u a) by ring.
  apply Z.divide_sub_r; [exact D|apply Z.divide_mul_r, pval_zero; assumption].
Qed.

(** a polynomial with a coefficient that the prime does not divide has fewer roots than coefficients *)
Lemma roots_bound p : prime p -> forall xs l, NoDup xs -> ~ Forall (fun c => (p | c)) l ->
  Forall (fun x => 0 <= x < p /\ (p | pval l x)) xs -> (length xs < length l)%nat.
Proof.
  intros Pp. pose proof (prime_ge_2 p Pp) as P2.
  induction xs as [|a xs IH]; intros l N Z0 F; [destruct l; [destruct Z0; constructor|cbn; lia]|].
  destruct l as [|c t]; [destruct Z0; constructor|]. cbn [length].
  inversion_clear N as [|? ? NI N']. inversion_clear F as [|? ? Fa F'].
  enough ((length xs < length (quot_at a t))%nat) by (rewrite quot_at_length in *; lia).
  apply IH; [exact N'| |].
  - intros H. apply quot_at_zero in H; [|lia]. apply Z0. constructor; [|exact H].
    destruct Fa as (_ & Fa). cbn [pval] in Fa. replace c with ((c + a * pval t a) - a * pval t a) by ring.
    apply Z.divide_sub_r; [exact Fa|apply Z.divide_mul_r, pval_zero; [lia|exact H]].
  - rewrite Forall_forall in *. intros x Ix. destruct (F' x Ix) as (Rx & Dx). split; [exact Rx|].
    destruct Fa as (Ra & Da).
    assert (D : (p | (x - a) * pval (quot_at a t) x)).
    { rewrite <- quot_at_val. cbn [pval] in *.
      replace (x * pval t x - a * pval t a) with ((c + x * pval t x) - (c + a * pval t a)) by ring.
      apply Z.divide_sub_r; assumption. }
    apply prime_mult in D; [|exact Pp]. destruct D as [D|D]; [|exact D]. exfalso.
    assert (x <> a) by (intros ->; contradiction).
    destruct D as [k D]. assert (k = 0) by nia. subst. lia.
Qed.

(** ** the difference of two polynomials *)
Fixpoint psub (l l' : list Z) : list Z :=
  match l, l' with
  | [], _ => map Z.opp l'
  | _, [] => l
  | c :: t, c' :: t' => (c - c') :: psub t t'
  end.
Lemma pval_opp l x : pval (map Z.opp l) x = - pval l x.
Proof. induction l as [|c t IH]; cbn; [reflexivity|]. rewrite IH. ring. Qed.
Lemma psub_val x : forall l l', pval (psub l l') x = pval l x - pval l' x.
Proof.
  induction l as [|c t IH]; intros l'; [cbn [psub]; rewrite pval_opp; cbn; ring|].
  destruct l' as [|c' t']; cbn [psub pval]; [ring|]. rewrite IH. ring.
Qed.
Lemma psub_length : forall l l', length (psub l l') = Nat.max (length l) (length l').
Proof.
  induction l as [|c t IH]; intros l'; [cbn; apply map_length|]. destruct l' as [|c' t']; cbn; [reflexivity|]. rewrite IH. reflexivity.
Qed.
Lemma small_divide p c : 1 <= c < p -> ~ (p | c).
Proof. intros H D. apply Z.divide_pos_le in D; lia. Qed.
Lemma psub_zero p : forall l l', Forall (fun c => 1 <= c < p) l -> Forall (fun c => 1 <= c < p) l' ->
  Forall (fun c => (p | c)) (psub l l') -> l = l'.
Proof.
  induction l as [|c t IH]; intros [|c' t'] F F' D; [reflexivity| | |].
  - cbn in D. inversion_clear D as [|? ? D0 _]. inversion_clear F' as [|? ? R _].
    apply (proj1 (Z.divide_opp_r _ _)) in D0. destruct (small_divide _ _ R D0).
  - cbn in D. inversion_clear D as [|? ? D0 _]. inversion_clear F as [|? ? R _]. destruct (small_divide _ _ R D0).
  - cbn in D. inversion_clear D as [|? ? D0 D1]. inversion_clear F as [|? ? R F0]. inversion_clear F' as [|? ? R' F0'].
    f_equal; [|apply IH; assumption]. destruct D0 as [k D0]. assert (k = 0) by nia. subst. lia.
Qed.

(** ** the accumulator as a polynomial *)
Fixpoint coeffs (msg : bytes) (n : nat) : list Z := match n with O => [] | S k => block_num msg k :: coeffs msg k end.
Lemma coeffs_length msg n : length (coeffs msg n) = n.
Proof. induction n; cbn; congruence. Qed.
Lemma poly_acc_pval r msg n : poly_acc r msg n = (r * pval (coeffs msg n) r) mod P1305.
Proof.
  induction n as [|n IH]; [cbn [poly_acc coeffs pval]; rewrite Z.mul_0_r; reflexivity|]. cbn [poly_acc coeffs pval]. rewrite IH.
  rewrite <- Z.mul_mod_idemp_r, Z.add_mod_idemp_l, Z.mul_mod_idemp_r by discriminate. f_equal. ring.
Qed.
Lemma mblock_le16 msg i : (length (mblock msg i) <= 16)%nat.
Proof. unfold mblock. rewrite firstn_length. lia. Qed.
Lemma pow256_8 n : 256 ^ Z.of_nat n = 2 ^ (8 * Z.of_nat n).
Proof. change 256 with (2 ^ 8). rewrite <- Z.pow_mul_r by lia. reflexivity. Qed.
Lemma block_num_range msg i : 1 <= block_num msg i < P1305.
Proof.
  unfold block_num. pose proof (le_val_range (mblock msg i)) as R. unfold zlen in R. rewrite pow256_8 in R.
  pose proof (mblock_le16 msg i).
  assert (0 < 2 ^ (8 * Z.of_nat (length (mblock msg i)))) by (apply Z.pow_pos_nonneg; lia).
  assert (2 ^ (8 * Z.of_nat (length (mblock msg i))) <= 2 ^ 128) by (apply Z.pow_le_mono_r; lia).
  unfold P1305. lia.
Qed.
Lemma coeffs_range msg n : Forall (fun c => 1 <= c < P1305) (coeffs msg n).
Proof. induction n; cbn; constructor; [apply block_num_range|assumption]. Qed.
Lemma block_num_inj msg msg' i : block_num msg i = block_num msg' i -> mblock msg i = mblock msg' i.
Proof.
  unfold block_num. pose proof (le_val_range (mblock msg i)) as R. pose proof (le_val_range (mblock msg' i)) as R'.
  unfold zlen in *. rewrite pow256_8 in R, R'. intros E.
  set (x := mblock msg i) in *. set (y := mblock msg' i) in *.
  assert (L : length x = length y).
  { destruct (lt_eq_lt_dec (length x) (length y)) as [[L|L]|L]; [exfalso|exact L|exfalso].
    - assert (2 * 2 ^ (8 * Z.of_nat (length x)) <= 2 ^ (8 * Z.of_nat (length y))).
      { rewrite <- Z.pow_succ_r by lia. apply Z.pow_le_mono_r; lia. }
      lia.
    - assert (2 * 2 ^ (8 * Z.of_nat (length y)) <= 2 ^ (8 * Z.of_nat (length x))).
      { rewrite <- Z.pow_succ_r by lia. apply Z.pow_le_mono_r; lia. }
      lia. }
  rewrite L in E. assert (V : le_val x = le_val y) by lia.
  rewrite <- (le_le_val x), <- (le_le_val y), L, V. reflexivity.
Qed.
Lemma coeffs_firstn msg msg' n : coeffs msg n = coeffs msg' n -> firstn (16 * n) msg = firstn (16 * n) msg'.
Proof.
  induction n as [|n IH]; intros E; [reflexivity|]. cbn [coeffs] in E. inversion E as [[E1 E2]]. specialize (IH E2).
  apply block_num_inj in E1. unfold mblock in E1.
  replace (16 * S n)%nat with (16 * n + 16)%nat by lia.
  assert (S : forall m : bytes, firstn (16 * n + 16) m = firstn (16 * n) m ++ firstn 16 (skipn (16 * n) m)).
  { intros m. rewrite <- (firstn_skipn (16 * n) m) at 1. rewrite firstn_app. rewrite firstn_firstn.
    rewrite Nat.min_r by lia. f_equal. rewrite firstn_length.
    destruct (Nat.le_gt_cases (16 * n) (length m)) as [H|H].
    - rewrite Nat.min_l by lia. f_equal. lia.
    - rewrite skipn_all2 by lia. rewrite !firstn_nil. reflexivity. }
  rewrite !S, IH, E1. reflexivity.
Qed.
Lemma nblocks_cover msg : (length msg <= 16 * nblocks msg)%nat.
Proof. unfold nblocks. pose proof (Nat.div_mod (length msg + 15) 16). pose proof (Nat.mod_upper_bound (length msg + 15) 16). lia. Qed.
Lemma coeffs_inj msg msg' : coeffs msg (nblocks msg) = coeffs msg' (nblocks msg') -> msg = msg'.
Proof.
  intros E. assert (N : nblocks msg = nblocks msg').
  { rewrite <- (coeffs_length msg (nblocks msg)), E. apply coeffs_length. }
  rewrite <- N in E. apply coeffs_firstn in E. pose proof (nblocks_cover msg). pose proof (nblocks_cover msg').
  rewrite !firstn_all2 in E by lia. exact E.
Qed.

Lemma mod_leftover p u v : p <> 0 -> (- (u mod p - v mod p) + (u - v)) mod p = 0.
Proof.
  intros P. replace (- _ + _) with ((u / p - v / p) * p); [apply Z.mod_mul; exact P|].
  pose proof (Z.div_mod u p P). pose proof (Z.div_mod v p P). lia.
Qed.
(** the clamped keys for which the accumulators of two messages differ by [d] *)
Lemma difference_roots msg msg' d xs : msg <> msg' -> NoDup xs ->
  Forall (fun x => 0 <= x < P1305 /\ poly_acc x msg (nblocks msg) - poly_acc x msg' (nblocks msg') = d) xs ->
  (length xs <= Nat.max (nblocks msg) (nblocks msg'))%nat.
Proof.
  intros Nm N F.
  pose (l := (- d) :: psub (coeffs msg (nblocks msg)) (coeffs msg' (nblocks msg'))).
  assert (H : (length xs < length l)%nat).
  { apply (roots_bound P1305 prime_p1305); [exact N| |].
    - intros D. unfold l in D. inversion_clear D as [|? ? _ D'].
      apply psub_zero in D'; [|apply coeffs_range|apply coeffs_range]. apply Nm, coeffs_inj, D'.
    - rewrite Forall_forall in *. intros x I. destruct (F x I) as (R & E). split; [exact R|].
      unfold l. cbn [pval]. rewrite psub_val. rewrite !poly_acc_pval in E.
      apply Z.mod_divide; [discriminate|]. rewrite <- E.
      rewrite Z.mul_sub_distr_l. apply mod_leftover. discriminate. }
  unfold l in H. cbn [length] in H. rewrite psub_length, !coeffs_length in H. lia.
Qed.

(** ** counting *)
Lemma fibres {A B} (dec : forall x y : B, {x = y} + {x <> y}) (f : A -> B) N : forall ks xs, NoDup xs ->
  Forall (fun x => In (f x) ks) xs ->
  (forall k ys, NoDup ys -> incl ys xs -> Forall (fun y => f y = k) ys -> Z.of_nat (length ys) <= N) ->
  Z.of_nat (length xs) <= Z.of_nat (length ks) * N.
Proof.
  induction ks as [|k ks IH]; intros xs D F H.
  - destruct xs as [|x xs]; [cbn; lia|]. inversion_clear F as [|? ? [] _].
  - pose (here := filter (fun x => if dec (f x) k then true else false) xs).
    pose (rest := filter (fun x => negb (if dec (f x) k then true else false)) xs).
    assert (L : (length xs = length here + length rest)%nat).
    { unfold here, rest. clear. induction xs as [|x xs IH]; [reflexivity|]. cbn. destruct (dec (f x) k); cbn; lia. }
    assert (Z.of_nat (length here) <= N).
    { apply (H k here); [apply NoDup_filter, D|intros x I; apply filter_In in I; apply I|].
      apply Forall_forall. intros x I. apply filter_In in I as (_ & I). destruct (dec (f x) k); [assumption|discriminate]. }
    assert (Z.of_nat (length rest) <= Z.of_nat (length ks) * N).
    { apply IH; [apply NoDup_filter, D| |].
      - apply Forall_forall. intros x I. apply filter_In in I as (I & J). rewrite Forall_forall in F.
        destruct (F x I) as [E|E]; [|exact E]. destruct (dec (f x) k); [discriminate|congruence].
      - intros k' ys Dy Iy Fy. apply (H k' ys Dy); [|exact Fy]. intros x I. apply Iy in I. apply filter_In in I. apply I. }
    cbn [length]. lia.
Qed.
Lemma z_range_length N xs : NoDup xs -> Forall (fun x => 0 <= x < N) xs -> Z.of_nat (length xs) <= Z.max 0 N.
Proof.
  intros D F. assert (length xs <= length (map Z.of_nat (seq 0 (Z.to_nat N))))%nat.
  { apply NoDup_incl_length; [exact D|]. intros x I. rewrite Forall_forall in F. specialize (F x I).
    apply in_map_iff. exists (Z.to_nat x). split; [lia|]. apply in_seq. lia. }
  rewrite map_length, seq_length in *. lia.
Qed.
Lemma NoDup_map_on {A B} (f : A -> B) xs : NoDup xs -> (forall x y, In x xs -> In y xs -> f x = f y -> x = y) -> NoDup (map f xs).
Proof.
  induction 1 as [|x xs NI D IH]; intros H; [constructor|]. cbn. constructor.
  - intros I. apply in_map_iff in I as (y & E & I). apply H in E; [|right; exact I|left; reflexivity]. subst. contradiction.
  - apply IH. intros a b Ia Ib. apply H; right; assumption.
Qed.

(** ** what clamping forgets *)
Definition clamp_mask : Z := 0x0ffffffc0ffffffc0ffffffc0fffffff.
Definition freeb (n : Z) : bool :=
  ((28 <=? n) && (n <? 34)) || ((60 <=? n) && (n <? 66)) || ((92 <=? n) && (n <? 98)) || (124 <=? n).
Lemma mask_bits n : 0 <= n < 128 -> Z.testbit clamp_mask n = negb (freeb n).
Proof.
  intros H. assert (C : forallb (fun k => Bool.eqb (Z.testbit clamp_mask (Z.of_nat k)) (negb (freeb (Z.of_nat k)))) (seq 0 128) = true)
    by (vm_compute; reflexivity).
  rewrite forallb_forall in C. specialize (C (Z.to_nat n) ltac:(apply in_seq; lia)). apply Bool.eqb_prop in C.
  rewrite Z2Nat.id in C by lia. exact C.
Qed.
Definition forgotten (r : Z) : Z :=
  (r / 2 ^ 28) mod 64 + 64 * ((r / 2 ^ 60) mod 64) + 4096 * ((r / 2 ^ 92) mod 64) + 262144 * ((r / 2 ^ 124) mod 16).
Lemma forgotten_range r : 0 <= forgotten r < 2 ^ 22.
Proof.
  unfold forgotten. change (2 ^ 22) with 4194304. pose proof (Z.mod_pos_bound (r / 2 ^ 28) 64). pose proof (Z.mod_pos_bound (r / 2 ^ 60) 64).
  pose proof (Z.mod_pos_bound (r / 2 ^ 92) 64). pose proof (Z.mod_pos_bound (r / 2 ^ 124) 16).
  remember ((r / 2 ^ 28) mod 64). remember ((r / 2 ^ 60) mod 64). remember ((r / 2 ^ 92) mod 64). remember ((r / 2 ^ 124) mod 16).
  lia.
Qed.
Lemma field_bits r a k n : 0 <= a -> 0 <= k -> a <= n < a + k -> Z.testbit ((r / 2 ^ a) mod 2 ^ k) (n - a) = Z.testbit r n.
Proof.
  intros A K H. rewrite Z.mod_pow2_bits_low by lia. rewrite Z.div_pow2_bits by lia. f_equal. lia.
Qed.
Lemma clamp_forgotten r r' : 0 <= r < 2 ^ 128 -> 0 <= r' < 2 ^ 128 -> clamp r = clamp r' -> forgotten r = forgotten r' -> r = r'.
Proof.
  intros R R' C F. apply Z.bits_inj'. intros n Hn.
  destruct (Z.ltb_spec n 128) as [H|H].
  - assert (T : forall x, Z.testbit (clamp x) n = Z.testbit x n && negb (freeb n)).
    { intros x. unfold clamp. rewrite Z.land_spec. fold clamp_mask. rewrite mask_bits by lia. reflexivity. }
    assert (E := T r). rewrite C, T in E.
    destruct (freeb n) eqn:Fn; [|cbn [negb] in E; rewrite !andb_true_r in E; congruence]. clear T E.
    unfold forgotten in F.
    assert (B : forall x, 0 <= (x / 2 ^ 28) mod 64 < 64 /\ 0 <= (x / 2 ^ 60) mod 64 < 64 /\ 0 <= (x / 2 ^ 92) mod 64 < 64 /\ 0 <= (x / 2 ^ 124) mod 16 < 16).
    { intros x. repeat split; apply Z.mod_pos_bound; reflexivity. }
    pose proof (B r) as B1. pose proof (B r') as B2.
    assert (E : (r / 2 ^ 28) mod 64 = (r' / 2 ^ 28) mod 64 /\ (r / 2 ^ 60) mod 64 = (r' / 2 ^ 60) mod 64 /\
                (r / 2 ^ 92) mod 64 = (r' / 2 ^ 92) mod 64 /\ (r / 2 ^ 124) mod 16 = (r' / 2 ^ 124) mod 16).
    { remember ((r / 2 ^ 28) mod 64). remember ((r / 2 ^ 60) mod 64). remember ((r / 2 ^ 92) mod 64). remember ((r / 2 ^ 124) mod 16).
      remember ((r' / 2 ^ 28) mod 64). remember ((r' / 2 ^ 60) mod 64). remember ((r' / 2 ^ 92) mod 64). remember ((r' / 2 ^ 124) mod 16).
      clear - F B1 B2. lia. }
    destruct E as (E1 & E2 & E3 & E4). change 64 with (2 ^ 6) in *. change 16 with (2 ^ 4) in *. unfold freeb in Fn.
    assert (K : 28 <= n < 28 + 6 \/ 60 <= n < 60 + 6 \/ 92 <= n < 92 + 6 \/ 124 <= n < 124 + 4).
    { clear - Fn H. lia. }
    destruct K as [K|[K|[K|K]]].
    + rewrite <- (field_bits r 28 6 n), <- (field_bits r' 28 6 n), E1 by (clear - K; lia). reflexivity.
    + rewrite <- (field_bits r 60 6 n), <- (field_bits r' 60 6 n), E2 by (clear - K; lia). reflexivity.
    + rewrite <- (field_bits r 92 6 n), <- (field_bits r' 92 6 n), E3 by (clear - K; lia). reflexivity.
    + rewrite <- (field_bits r 124 4 n), <- (field_bits r' 124 4 n), E4 by (clear - K; lia). reflexivity.
  - rewrite <- (Z.mod_small r (2 ^ 128)), <- (Z.mod_small r' (2 ^ 128)) by assumption.
    rewrite !Z.mod_pow2_bits_high by lia. reflexivity.
Qed.
Lemma clamp_small r : 0 <= r -> 0 <= clamp r < P1305.
Proof.
  intros R. assert (0 <= clamp r < 2 ^ 124); [unfold clamp; rewrite Z.land_comm; apply land_range; lia|].
  unfold P1305. lia.
Qed.

(** ** keys *)
Lemma val16 (b : bytes) : length b = 16%nat -> 0 <= le_val b < 2 ^ 128.
Proof. intros L. pose proof (le_val_range b) as R. unfold zlen in R. rewrite L in R. exact R. Qed.
Lemma val16_inj (b b' : bytes) : length b = 16%nat -> length b' = 16%nat -> le_val b = le_val b' -> b = b'.
Proof. intros L L' E. rewrite <- (le_le_val b), <- (le_le_val b'), L, L', E. reflexivity. Qed.
Lemma le16_eq a b : le 16 a = b -> a mod 2 ^ 128 = le_val b.
Proof. intros <-. rewrite le_val_le. reflexivity. Qed.
Lemma poly_acc_range r msg n : 0 <= poly_acc r msg n < P1305.
Proof. rewrite <- poly_acc_mod. apply Z.mod_pos_bound. reflexivity. Qed.

(** the eight multiples of 2^128 by which the difference of two accumulators can exceed that of the tags *)
Definition slots : list Z := [-4; -3; -2; -1; 0; 1; 2; 3].
Lemma slot a a' s t t' : 0 <= a < P1305 -> 0 <= a' < P1305 -> (a + s) mod 2 ^ 128 = t -> (a' + s) mod 2 ^ 128 = t' ->
  In ((a - a') / 2 ^ 128) slots /\ a - a' = (t - t') mod 2 ^ 128 + 2 ^ 128 * ((a - a') / 2 ^ 128).
Proof.
  intros A A' <- <-. assert (E : ((a + s) mod 2 ^ 128 - (a' + s) mod 2 ^ 128) mod 2 ^ 128 = (a - a') mod 2 ^ 128).
  { rewrite <- Zminus_mod. f_equal. ring. }
  rewrite E. pose proof (Z.div_mod (a - a') (2 ^ 128) ltac:(discriminate)) as D.
  pose proof (Z.mod_pos_bound (a - a') (2 ^ 128) ltac:(reflexivity)) as B. split; [|rewrite D at 1; ring].
  clear E. unfold P1305 in *. remember ((a - a') / 2 ^ 128) as k. remember ((a - a') mod 2 ^ 128) as m. clear Heqk Heqm.
  assert (-5 < k < 4) by lia. unfold slots. cbn [In]. lia.
Qed.

(** clamped halves of the keys that explain both tags *)
Lemma clamped_bound msg msg' t t' xs : msg <> msg' -> NoDup xs ->
  Forall (fun x => 0 <= x < P1305 /\ exists s, (poly_acc x msg (nblocks msg) + s) mod 2 ^ 128 = t /\
                                                (poly_acc x msg' (nblocks msg') + s) mod 2 ^ 128 = t') xs ->
  Z.of_nat (length xs) <= 8 * Z.of_nat (Nat.max (nblocks msg) (nblocks msg')).
Proof.
  intros Nm N F. rewrite Forall_forall in F.
  apply (fibres Z.eq_dec (fun x => (poly_acc x msg (nblocks msg) - poly_acc x msg' (nblocks msg')) / 2 ^ 128) _ slots); [exact N| |].
  - apply Forall_forall. intros x I. destruct (F x I) as (R & s & E & E').
    apply (slot _ _ s t t'); auto using poly_acc_range.
  - intros k ys D I Fy. apply inj_le. rewrite Forall_forall in Fy.
    apply (difference_roots msg msg' ((t - t') mod 2 ^ 128 + 2 ^ 128 * k)); [exact Nm|exact D|].
    apply Forall_forall. intros y Iy. destruct (F y (I y Iy)) as (R & s & E & E'). split; [exact R|].
    rewrite <- (Fy y Iy). apply (slot _ _ s t t'); auto using poly_acc_range.
Qed.

Lemma mac_eq msg r s tag : poly1305_mac msg r s = tag ->
  (poly_acc (clamp (le_val r)) msg (nblocks msg) + le_val s) mod 2 ^ 128 = le_val tag.
Proof. intros E. apply le16_eq. exact E. Qed.

Lemma forgery_bound msg msg' tag tag' keys : msg <> msg' -> NoDup keys ->
  Forall (fun k => length (fst k) = 16%nat /\ length (snd k) = 16%nat /\
                   poly1305_mac msg (fst k) (snd k) = tag /\ poly1305_mac msg' (fst k) (snd k) = tag') keys ->
  Z.of_nat (length keys) <= 2 ^ 25 * Z.of_nat (Nat.max (nblocks msg) (nblocks msg')).
Proof.
  intros Nm N F. rewrite Forall_forall in F.
  pose (cl := fun k : bytes * bytes => clamp (le_val (fst k))).
  pose (cs := nodup Z.eq_dec (map cl keys)).
  assert (C : Z.of_nat (length cs) <= 8 * Z.of_nat (Nat.max (nblocks msg) (nblocks msg'))).
  { apply (clamped_bound msg msg' (le_val tag) (le_val tag')); [exact Nm|apply NoDup_nodup|].
    apply Forall_forall. intros x I. apply nodup_In, in_map_iff in I as (k & <- & I).
    destruct (F k I) as (L1 & L2 & E & E'). split; [apply clamp_small, val16, L1|].
    exists (le_val (snd k)). split; apply mac_eq; assumption. }
  assert (K : Z.of_nat (length keys) <= Z.of_nat (length cs) * 2 ^ 22).
  { apply (fibres Z.eq_dec cl); [exact N| |].
    - apply Forall_forall. intros k I. apply nodup_In, in_map, I.
    - intros c ys D I Fy. rewrite Forall_forall in Fy.
      rewrite <- (map_length (fun k => forgotten (le_val (fst k))) ys). change (2 ^ 22) with (Z.max 0 (2 ^ 22)).
      apply z_range_length; [|apply Forall_forall; intros x Ix; apply in_map_iff in Ix as (k & <- & _); apply forgotten_range].
      apply NoDup_map_on; [exact D|]. intros k k' J J' E.
      destruct (F k (I k J)) as (L1 & L2 & M & _). destruct (F k' (I k' J')) as (L1' & L2' & M' & _).
      assert (R : le_val (fst k) = le_val (fst k')).
      { apply clamp_forgotten; [apply val16, L1|apply val16, L1'| |exact E].
        pose proof (Fy k J) as H. pose proof (Fy k' J') as H'. unfold cl in *. congruence. }
      apply mac_eq in M. apply mac_eq in M'. rewrite <- M in M'. rewrite R in M'.
      pose proof (val16 _ L2) as V. pose proof (val16 _ L2') as V'.
      assert (S : le_val (snd k) = le_val (snd k')).
      { set (a := poly_acc (clamp (le_val (fst k'))) msg (nblocks msg)) in *.
        rewrite <- (Z.mod_small (le_val (snd k)) (2 ^ 128)), <- (Z.mod_small (le_val (snd k')) (2 ^ 128)) by assumption.
        replace (le_val (snd k)) with ((a + le_val (snd k)) - a) by ring.
        replace (le_val (snd k')) with ((a + le_val (snd k')) - a) by ring.
        rewrite Zminus_mod, <- M', <- Zminus_mod. reflexivity. }
      destruct k as [r s], k' as [r' s']. cbn [fst snd] in *. f_equal; apply val16_inj; assumption. }
  assert (P : 2 ^ 25 = 8 * 2 ^ 22) by reflexivity. rewrite P. clear - C K. lia.
Qed.

(** for every first half there is exactly one second half *)
Lemma consistent msg r tag : length tag = 16%nat ->
  exists! s : bytes, length s = 16%nat /\ poly1305_mac msg r s = tag.
Proof.
  intros L. set (a := poly_acc (clamp (le_val r)) msg (nblocks msg)).
  exists (le 16 (le_val tag - a)). split.
  - split; [apply le_length|]. unfold poly1305_mac. fold a. rewrite le_val_le.
    rewrite <- (le_le_val tag) at 2. rewrite L.
    rewrite <- (le_mod 16 16 (a + _)), <- (le_mod 16 16 (le_val tag)) by lia. f_equal.
    change (256 ^ Z.of_nat 16) with (2 ^ 128). rewrite Z.add_mod_idemp_r by discriminate. f_equal. ring.
  - intros s (Ls & E). apply mac_eq in E. fold a in E. rewrite <- E. apply val16_inj; [apply le_length|exact Ls|].
    rewrite le_val_le. change (256 ^ Z.of_nat 16) with (2 ^ 128).
    rewrite Zminus_mod_idemp_l. replace (a + le_val s - a) with (le_val s) by ring. apply Z.mod_small, val16, Ls.
Qed.

(** ** records *)
Lemma pad16_total n : exists k, (n + pad16_len n = 16 * k)%nat /\ Z.of_nat k = (Z.of_nat n + 15) / 16.
Proof.
  unfold pad16_len. exists ((n + 15) / 16)%nat. split; [|rewrite Nat2Z.inj_div; f_equal; lia].
  pose proof (Nat.div_mod n 16 ltac:(lia)) as D. pose proof (Nat.mod_upper_bound n 16 ltac:(lia)) as B.
  pose proof (Nat.div_mod (n + 15) 16 ltac:(lia)) as D'. pose proof (Nat.mod_upper_bound (n + 15) 16 ltac:(lia)) as B'.
  destruct (Nat.eq_dec (n mod 16) 0) as [E|E].
  - rewrite E in *. change ((16 - 0) mod 16)%nat with 0%nat. lia.
  - rewrite (Nat.mod_small (16 - n mod 16)) by lia. lia.
Qed.
Lemma nblocks_mac_data ad ct : Z.of_nat (nblocks (aead_mac_data ad ct)) = mac_blocks ad ct.
Proof.
  unfold nblocks, mac_blocks, aead_mac_data, zlen. unfold zeros. rewrite !app_length, !repeat_length, !le_length.
  destruct (pad16_total (length ad)) as (a & A & <-). destruct (pad16_total (length ct)) as (c & C & <-).
  replace (length ad + (pad16_len (length ad) + (length ct + (pad16_len (length ct) + (8 + 8)))) + 15)%nat
    with ((a + c + 1) * 16 + 15)%nat by lia.
  rewrite Nat.div_add_l by lia. change (15 / 16)%nat with 0%nat. lia.
Qed.

Lemma poly_key_split (k : bytes) : length k = 32%nat -> length (firstn 16 k) = 16%nat /\ length (skipn 16 k) = 16%nat.
Proof. intros L. rewrite firstn_length, skipn_length. lia. Qed.

Lemma mac_forgery ad ct tag ad' ct' tag' keys :
  zlen ad < 2 ^ 64 -> zlen ct < 2 ^ 64 -> zlen ad' < 2 ^ 64 -> zlen ct' < 2 ^ 64 -> (ad, ct, tag) <> (ad', ct', tag') -> NoDup keys ->
  Forall (fun k => length k = 32%nat /\ poly1305_mac (aead_mac_data ad ct) (firstn 16 k) (skipn 16 k) = tag /\
                   poly1305_mac (aead_mac_data ad' ct') (firstn 16 k) (skipn 16 k) = tag') keys ->
  Z.of_nat (length keys) <= 2 ^ 25 * Z.max (mac_blocks ad ct) (mac_blocks ad' ct').
Proof.
  intros A C A' C' Ne N F. rewrite Forall_forall in F.
  assert (D : aead_mac_data ad ct = aead_mac_data ad' ct' \/ aead_mac_data ad ct <> aead_mac_data ad' ct').
  { destruct (list_eq_dec Byte.byte_eq_dec (aead_mac_data ad ct) (aead_mac_data ad' ct')); auto. }
  destruct D as [D|D].
  - destruct keys as [|k keys].
    + cbn [length]. pose proof (Z.div_pos (zlen ad + 15) 16). pose proof (Z.div_pos (zlen ct + 15) 16).
      pose proof (zlen_nonneg ad). pose proof (zlen_nonneg ct). change (2 ^ 25) with 33554432. unfold mac_blocks. lia.
    + exfalso. apply Ne. destruct (F k (or_introl eq_refl)) as (L & E & E').
      rewrite <- D in E'. apply aead_mac_data_inj in D as (-> & ->); try assumption. congruence.
  - rewrite <- !nblocks_mac_data, <- Nat2Z.inj_max.
    rewrite <- (map_length (fun k => (firstn 16 k, skipn 16 k)) keys).
    apply (forgery_bound _ _ tag tag'); [exact D| |].
    + apply NoDup_map_on; [exact N|]. intros k k' _ _ E. pose proof (f_equal fst E) as E1. pose proof (f_equal snd E) as E2. unfold fst, snd in E1, E2.
      rewrite <- (firstn_skipn 16 k), E1, E2. apply firstn_skipn.
    + apply Forall_forall. intros x I. apply in_map_iff in I as (k & <- & I). destruct (F k I) as (L & E & E').
      destruct (poly_key_split k L) as (L1 & L2). cbn [fst snd]. auto.
Qed.
Lemma compute_mac_eq m k ct ad : length k = 32%nat ->
  compute_mac m k ct ad = Ok (poly1305_mac (aead_mac_data ad ct) (firstn 16 k) (skipn 16 k)).
Proof.
  intros L. destruct (poly_key_split k L) as (L1 & L2). unfold compute_mac.
  rewrite slice_0_16, slice_16_32, mac_input_spec, (firstn_all2 (n := 32)) by lia. apply authenticate_spec; assumption.
Qed.
Lemma code_forgery m ad ct tag ad' ct' tag' keys :
  zlen ad < 2 ^ 64 -> zlen ct < 2 ^ 64 -> zlen ad' < 2 ^ 64 -> zlen ct' < 2 ^ 64 -> (ad, ct, tag) <> (ad', ct', tag') -> NoDup keys ->
  Forall (fun k => length k = 32%nat /\ compute_mac m k ct ad = Ok tag /\ compute_mac m k ct' ad' = Ok tag') keys ->
  Z.of_nat (length keys) <= 2 ^ 25 * Z.max (mac_blocks ad ct) (mac_blocks ad' ct').
Proof.
  intros A C A' C' Ne N F. apply (mac_forgery ad ct tag ad' ct' tag'); try assumption.
  eapply Forall_impl; [|exact F]. cbn beta. intros k (L & E & E'). rewrite !compute_mac_eq in E, E' by exact L.
  split; [exact L|]. split; congruence.
Qed.

Lemma fits_zlen ct : fits ct -> zlen ct < 2 ^ 64.
Proof.
  unfold fits, blocks64, zlen. intros F. pose proof (Z.div_mod (Z.of_nat (length ct) + 63) 64). pose proof (Z.mod_pos_bound (Z.of_nat (length ct) + 63) 64). lia.
Qed.
Lemma poly_key_gen_length key nonce : length (poly_key_gen key nonce) = 32%nat.
Proof. unfold poly_key_gen. rewrite firstn_length, chacha20_block_length. reflexivity. Qed.
Lemma decrypt_mac m key nonce ct tag ad p : length key = 32%nat -> length nonce = 12%nat -> fits ct -> length tag = 16%nat ->
  dc_decrypt (new_decryptor m key) nonce (ct ++ tag) ad = Ok p ->
  poly1305_mac (aead_mac_data ad ct) (firstn 16 (poly_key_gen key nonce)) (skipn 16 (poly_key_gen key nonce)) = tag.
Proof.
  intros Lk Ln F Lt. unfold new_decryptor. cbn [dc_decrypt]. rewrite aead_decrypt_eq by assumption.
  destruct (Z.eqb_spec (mac_diff (poly1305_mac (aead_mac_data ad ct) (firstn 16 (poly_key_gen key nonce)) (skipn 16 (poly_key_gen key nonce))) tag) 0) as [E|E];
    [intros _|discriminate].
  apply mac_diff_decides in E; [exact E|apply poly1305_mac_length|exact Lt].
Qed.
Lemma open_forgery m nonce ad ct tag ad' ct' tag' keys :
  length nonce = 12%nat -> fits ct -> fits ct' -> length tag = 16%nat -> length tag' = 16%nat -> zlen ad < 2 ^ 64 -> zlen ad' < 2 ^ 64 ->
  (ad, ct, tag) <> (ad', ct', tag') -> NoDup (map (fun key => poly_key_gen key nonce) keys) ->
  Forall (fun key => length key = 32%nat /\
            (exists p, dc_decrypt (new_decryptor m key) nonce (ct ++ tag) ad = Ok p) /\
            (exists p, dc_decrypt (new_decryptor m key) nonce (ct' ++ tag') ad' = Ok p)) keys ->
  Z.of_nat (length keys) <= 2 ^ 25 * Z.max (mac_blocks ad ct) (mac_blocks ad' ct').
Proof.
  intros Ln F F' Lt Lt' A A' Ne N H. rewrite <- (map_length (fun key => poly_key_gen key nonce) keys).
  apply (mac_forgery ad ct tag ad' ct' tag'); auto using fits_zlen.
  apply Forall_forall. intros k I. apply in_map_iff in I as (key & <- & I). rewrite Forall_forall in H.
  destruct (H key I) as (Lk & (p & E) & (p' & E')).
  apply decrypt_mac in E; [|assumption..]. apply decrypt_mac in E'; [|assumption..].
  split; [apply poly_key_gen_length|]. split; assumption.
Qed.
Lemma record_blocks ad ct : zlen ad = 13 -> zlen ct <= 18432 -> mac_blocks ad ct <= 1154.
Proof.
  intros A C. unfold mac_blocks. rewrite A. change ((13 + 15) / 16) with 1.
  pose proof (zlen_nonneg ct). assert ((zlen ct + 15) / 16 < 1153); [apply Z.div_lt_upper_bound; lia|lia].
Qed.
Lemma record_forgery m ad ct tag ad' ct' tag' keys :
  zlen ad = 13 -> zlen ad' = 13 -> zlen ct <= 18432 -> zlen ct' <= 18432 -> (ad, ct, tag) <> (ad', ct', tag') -> NoDup keys ->
  Forall (fun k => length k = 32%nat /\ compute_mac m k ct ad = Ok tag /\ compute_mac m k ct' ad' = Ok tag') keys ->
  2 ^ 92 * Z.of_nat (length keys) < 2 ^ 128.
Proof.
  intros A A' C C' Ne N F. pose proof (code_forgery m ad ct tag ad' ct' tag' keys) as H.
  assert (Z.of_nat (length keys) <= 2 ^ 25 * Z.max (mac_blocks ad ct) (mac_blocks ad' ct')) by (apply H; lia || assumption).
  pose proof (record_blocks ad ct A C). pose proof (record_blocks ad' ct' A' C'). clear - H0 H1 H2. lia.
Qed.

(** ** the second half of the one-time key *)
Lemma code_consistent m ct ad tag r : length tag = 16%nat -> length r = 16%nat ->
  exists! s : bytes, length s = 16%nat /\ compute_mac m (r ++ s) ct ad = Ok tag.
Proof.
  intros Lt Lr. destruct (consistent (aead_mac_data ad ct) r tag Lt) as (s & (Ls & E) & U).
  assert (S : forall s : bytes, length s = 16%nat -> compute_mac m (r ++ s) ct ad = Ok (poly1305_mac (aead_mac_data ad ct) r s)).
  { intros x Lx. rewrite compute_mac_eq by (rewrite app_length; lia). rewrite firstn_app, skipn_app, Lr, Nat.sub_diag.
    rewrite firstn_all2, skipn_all2 by lia. cbn [firstn skipn]. rewrite app_nil_r. reflexivity. }
  exists s. split; [split; [exact Ls|rewrite S, E by exact Ls; reflexivity]|].
  intros x (Lx & Ex). apply U. split; [exact Lx|]. rewrite S in Ex by exact Lx. congruence.
Qed.
(** keys whose clamped half is zero give one tag to everything *)
Lemma poly_acc_0 msg n : poly_acc 0 msg n = 0.
Proof. destruct n; reflexivity. Qed.
Lemma weak_key m k ct ad : length k = 32%nat -> clamp (le_val (firstn 16 k)) = 0 -> compute_mac m k ct ad = Ok (skipn 16 k).
Proof.
  intros L C. rewrite compute_mac_eq by exact L. unfold poly1305_mac. rewrite C, poly_acc_0. cbn [Z.add].
  destruct (poly_key_split k L) as (_ & L2). rewrite <- L2 at 1. rewrite le_le_val. reflexivity.
Qed.
Lemma never_false : exists k tag ad ct ct', length k = 32%nat /\ ct <> ct' /\
  forall m, compute_mac m k ct ad = Ok tag /\ compute_mac m k ct' ad = Ok tag.
Proof.
  exists (repeat x00 3 ++ [xf0] ++ repeat x00 12 ++ repeat x2a 16), (repeat x2a 16), [], [x01], [x02].
  split; [reflexivity|]. split; [discriminate|]. intros m. split; apply weak_key; reflexivity.
Qed.
