(** Proofs about src/util.rs. *)
From Verif Require Import Spec_Util.
From Coq Require Import ZifyBool ZifyNat.
Ltac Zify.zify_post_hook ::= Z.div_mod_to_equations.

(** ** fill_exact *)
Lemma fill_ok s : forall n, (n <= length (stream s))%nat ->
  exists s', fill_exact s n = (Ok (firstn n (stream s)), s') /\ stream s' = skipn n (stream s).
Proof.
  induction s as [|e s IH]; intros n H.
  - cbn in H. replace n with 0%nat by lia. exists []. split; reflexivity.
  - destruct n as [|n]; [exists (e :: s); split; reflexivity|].
    destruct e as [[|b bs]|]; [cbn in H; lia| |cbn in H; lia].
    cbn [stream] in *. cbn [fill_exact].
    destruct (Nat.leb_spec (length (b :: bs)) (S n)) as [L|L].
    + destruct (IH (S n - length (b :: bs))%nat) as (s' & E1 & E2).
      { cbn [length] in *. rewrite app_length in H. lia. }
      rewrite E1. exists s'. split.
      * change (b :: bs ++ stream s) with ((b :: bs) ++ stream s).
        rewrite (firstn_app (S n)), (firstn_all2 (n := S n) (b :: bs)) by exact L. reflexivity.
      * rewrite E2. change (b :: bs ++ stream s) with ((b :: bs) ++ stream s).
        rewrite (skipn_app (S n)), (skipn_all2 (n := S n) (b :: bs)) by exact L. reflexivity.
    + exists (RData (skipn (S n) (b :: bs)) :: s).
      change (b :: bs ++ stream s) with ((b :: bs) ++ stream s).
      assert (Z0 : (S n - length (b :: bs) = 0)%nat) by lia. split.
      * rewrite (firstn_app (S n)), Z0. cbn [firstn]. rewrite app_nil_r. reflexivity.
      * rewrite (skipn_app (S n)), Z0. cbn [skipn stream].
        destruct (skipn n bs) as [|c cs] eqn:E; [|reflexivity].
        apply (f_equal (@length byte)) in E. rewrite skipn_length in E. cbn [length] in *. lia.
Qed.

Lemma fill_err s : forall n, (length (stream s) < n)%nat -> fst (fill_exact s n) = Err IoFailure.
Proof.
  induction s as [|e s IH]; intros n H; (destruct n as [|n]; [lia|]); [reflexivity|].
  destruct e as [[|b bs]|]; [reflexivity| |reflexivity]. cbn [stream length] in H. cbn [fill_exact].
  rewrite app_length in H.
  destruct (Nat.leb_spec (length (b :: bs)) (S n)) as [L|L]; [|cbn [length] in *; lia].
  specialize (IH (S n - length (b :: bs))%nat). cbn [length] in *.
  destruct (fill_exact s _) as [r s'] eqn:E. cbn [fst] in IH. rewrite IH by lia. reflexivity.
Qed.

Lemma clean_stream s : clean s -> stream s = [] -> s = [].
Proof. intros [|e l (b & bs & ->) _] H; [reflexivity|discriminate]. Qed.

Lemma fill_clean s : forall n, clean s -> clean (snd (fill_exact s n)).
Proof.
  induction s as [|e s IH]; intros n C; (destruct n as [|n]; [exact C|]); [exact C|].
  inversion C as [|? ? (b & bs & ->) C']; subst. cbn [fill_exact].
  destruct (Nat.leb_spec (length (b :: bs)) (S n)) as [L|L].
  - specialize (IH (S n - length (b :: bs))%nat C').
    destruct (fill_exact s _) as [[]]; exact IH.
  - constructor; [|exact C']. cbn [skipn]. destruct (skipn n bs) as [|c cs] eqn:E; [|eauto].
    apply (f_equal (@length byte)) in E. rewrite skipn_length in E. cbn [length] in *. lia.
Qed.

Lemma fill_err_clean s : forall n, clean s -> (length (stream s) < n)%nat -> snd (fill_exact s n) = [].
Proof.
  induction s as [|e s IH]; intros n C H; (destruct n as [|n]; [lia|]); [reflexivity|].
  inversion C as [|? ? (b & bs & ->) C']; subst. cbn [stream length] in H. rewrite app_length in H. cbn [fill_exact].
  destruct (Nat.leb_spec (length (b :: bs)) (S n)) as [L|L]; [|cbn [length] in *; lia].
  specialize (IH (S n - length (b :: bs))%nat C'). cbn [length] in *.
  destruct (fill_exact s _) as [[]]; apply IH; lia.
Qed.

Lemma fill_split s1 s2 n : same_stream s1 s2 ->
  fst (fill_exact s1 n) = fst (fill_exact s2 n) /\
  same_stream (snd (fill_exact s1 n)) (snd (fill_exact s2 n)).
Proof.
  intros (C1 & C2 & E). destruct (Nat.leb_spec n (length (stream s1))) as [L|L].
  - destruct (fill_ok s1 n L) as (t1 & F1 & G1). destruct (fill_ok s2 n) as (t2 & F2 & G2); [rewrite <- E; exact L|].
    pose proof (fill_clean s1 n C1) as D1. pose proof (fill_clean s2 n C2) as D2.
    rewrite F1 in D1 |- *. rewrite F2 in D2 |- *. cbn [fst snd] in *. rewrite E. split; [reflexivity|].
    split; [exact D1|]. split; [exact D2|]. rewrite G1, G2, E. reflexivity.
  - assert (L2 : (length (stream s2) < n)%nat) by (rewrite <- E; exact L).
    rewrite (fill_err s1 n L), (fill_err s2 n L2), (fill_err_clean s1 n C1 L), (fill_err_clean s2 n C2 L2).
    split; [reflexivity|]. repeat split; constructor.
Qed.

Lemma fill_never_short s n got s' : fill_exact s n = (Ok got, s') -> length got = n.
Proof.
  intros H. destruct (Nat.leb_spec n (length (stream s))) as [L|L].
  - destruct (fill_ok s n L) as (t & F & _). rewrite F in H. injection H as <- _. rewrite firstn_length. lia.
  - pose proof (fill_err s n L) as E. rewrite H in E. discriminate.
Qed.

Lemma fill_total s n : (exists got, fst (fill_exact s n) = Ok got) \/ fst (fill_exact s n) = Err IoFailure.
Proof.
  destruct (Nat.leb_spec n (length (stream s))) as [L|L].
  - destruct (fill_ok s n L) as (t & F & _). rewrite F. left. eexists. reflexivity.
  - right. apply fill_err. exact L.
Qed.

(** ** endianness *)
Lemma be_snoc n z : be (S n) z = be n (z / 256) ++ [z2b z].
Proof.
  revert z. induction n as [|n IH]; intros z.
  - cbn [be app]. rewrite Z.pow_0_r, Z.div_1_r. reflexivity.
  - change (be (S (S n)) z) with (z2b (z / 256 ^ Z.of_nat (S n)) :: be (S n) z).
    rewrite IH. cbn [be app]. f_equal. rewrite Nat2Z.inj_succ, Z.pow_succ_r by lia.
    rewrite <- Z.div_div by lia. reflexivity.
Qed.
Lemma rev_le n z : rev (le n z) = be n z.
Proof.
  revert z. induction n as [|n IH]; intros z; [reflexivity|]. rewrite be_snoc. cbn [le rev]. rewrite IH. reflexivity.
Qed.
Lemma rev_be n z : rev (be n z) = le n z.
Proof. rewrite <- rev_le. apply rev_involutive. Qed.
Lemma le_be_val bs : le (length bs) (be_val bs) = rev bs.
Proof. rewrite <- rev_be, be_be_val. reflexivity. Qed.
Lemma be_le_val bs : be (length bs) (le_val bs) = rev bs.
Proof. rewrite <- rev_le, le_le_val. reflexivity. Qed.
Lemma be_val_rev bs : be_val (rev bs) = le_val bs.
Proof.
  rewrite <- be_le_val, be_val_be. apply Z.mod_small. apply le_val_range.
Qed.

Lemma write_be_ok h w x : write_be h w x = be w x.
Proof.
  destruct h; cbn [write_be to_mem to_be]; [|reflexivity]. unfold write_be, to_mem, to_be, swap_bytes.
  rewrite <- (le_length w x) at 1. rewrite le_be_val. apply rev_le.
Qed.
Lemma write_le_ok h w x : write_le h w x = le w x.
Proof.
  destruct h; [reflexivity|]. unfold write_le, to_mem, to_le, swap_bytes.
  rewrite <- (le_length w x) at 1. rewrite be_be_val. reflexivity.
Qed.
Lemma read_be_ok h w bs : length bs = w -> read_be h w bs = be_val bs.
Proof.
  intros <-. destruct h; [|reflexivity]. unfold read_be, to_be, of_mem, swap_bytes. rewrite le_le_val. reflexivity.
Qed.
Lemma read_le_ok h w bs : length bs = w -> read_le h w bs = le_val bs.
Proof.
  intros <-. destruct h; [reflexivity|]. unfold read_le, to_le, of_mem, swap_bytes. rewrite le_be_val.
  apply be_val_rev.
Qed.
Lemma endian_write h w x :
  write_be h w x = be w x /\ write_le h w x = le w x /\
  u64_be_array h x = be 8 x /\ u64_le_array h x = le 8 x /\ u32_be_array h x = be 4 x /\ u32_le_array h x = le 4 x.
Proof.
  repeat split; [apply write_be_ok|apply write_le_ok|apply (write_be_ok h 8)|apply (write_le_ok h 8)
                |apply (write_be_ok h 4)|apply (write_le_ok h 4)].
Qed.
Lemma endian_read h w bs : length bs = w -> read_be h w bs = be_val bs /\ read_le h w bs = le_val bs.
Proof. intros L. split; [apply read_be_ok|apply read_le_ok]; exact L. Qed.
Lemma endian_roundtrip h h' w x : 0 <= x < 256 ^ Z.of_nat w ->
  read_be h w (write_be h' w x) = x /\ read_le h w (write_le h' w x) = x.
Proof.
  intros R. rewrite write_be_ok, write_le_ok. split.
  - rewrite read_be_ok by apply be_length. rewrite be_val_be. apply Z.mod_small, R.
  - rewrite read_le_ok by apply le_length. rewrite le_val_le. apply Z.mod_small, R.
Qed.

(** ** crypto_compare *)
Definition fold_bits (d : Z) : Z :=
  let diff := Z.lor d (Z.shiftr d 4) in
  let diff := Z.lor diff (Z.shiftr diff 2) in
  let diff := Z.lor diff (Z.shiftr diff 1) in
  Z.land diff 1.

Lemma fold_bits_zero d : 0 <= d < 256 -> (fold_bits d =? 0) = (d =? 0).
Proof.
  intros R.
  assert (A : forallb (fun n => Bool.eqb (fold_bits (Z.of_nat n) =? 0) (Z.of_nat n =? 0)) (seq 0 256) = true)
    by (vm_compute; reflexivity).
  rewrite forallb_forall in A. specialize (A (Z.to_nat d)). rewrite Z2Nat.id in A by lia.
  apply eqb_prop, A, in_seq. lia.
Qed.

Lemma lor_byte a b : 0 <= a < 256 -> 0 <= b < 256 -> 0 <= Z.lor a b < 256.
Proof.
  intros Ha Hb. split; [apply Z.lor_nonneg; lia|].
  destruct (Z.eq_dec (Z.lor a b) 0) as [->|N]; [lia|].
  assert (0 <= Z.lor a b) by (apply Z.lor_nonneg; lia).
  apply (Z.log2_lt_pow2 _ 8); [lia|]. rewrite Z.log2_lor by lia. apply Z.max_lub_lt.
  - destruct (Z.eq_dec a 0) as [->|]; [cbn; lia|]. apply (Z.log2_lt_pow2 _ 8); lia.
  - destruct (Z.eq_dec b 0) as [->|]; [cbn; lia|]. apply (Z.log2_lt_pow2 _ 8); lia.
Qed.

Lemma compare_loop_spec a : forall b d, length a = length b -> 0 <= d < 256 ->
  exists d', compare_loop d a b = Ok d' /\ 0 <= d' < 256 /\ (d' = 0 <-> d = 0 /\ a = b).
Proof.
  induction a as [|x a IH]; intros [|y b] d L R; try discriminate.
  - exists d. cbn. intuition.
  - cbn [compare_loop]. pose proof (b2z_range x) as RX. pose proof (b2z_range y) as RY.
    destruct (IH b (Z.lor d (Z.lxor (b2z x) (b2z y)))) as (d' & E & R' & Z0).
    { cbn in L. lia. } { apply lor_byte; [exact R|apply lxor_byte_range; assumption]. }
    exists d'. split; [exact E|]. split; [exact R'|]. rewrite Z0, Z.lor_eq_0_iff, Z.lxor_eq_0_iff. split.
    + intros [[-> X] ->]. apply b2z_inj in X. subst. auto.
    + intros [-> X]. injection X as -> ->. auto.
Qed.

Lemma compare_decides m a b : length a = length b ->
  exists r, crypto_compare m a b = Ok r /\ (r = true <-> a = b).
Proof.
  intros L. unfold crypto_compare.
  assert (D : dassert m (length a =? length b)%nat = Ok tt).
  { rewrite L, Nat.eqb_refl. destruct m; reflexivity. }
  rewrite D. cbn [rbind]. destruct (compare_loop_spec a b 0 L) as (d & E & R & Z0); [lia|].
  rewrite E. cbn [rbind]. exists (fold_bits d =? 0). split; [reflexivity|].
  rewrite fold_bits_zero by exact R. rewrite Z.eqb_eq, Z0. intuition.
Qed.

(** unequal lengths never compare equal silently in debug builds; in release a longer second operand is cut *)
Lemma compare_lengths_debug a b : length a <> length b -> crypto_compare Debug a b = Panic.
Proof.
  intros L. unfold crypto_compare. cbn [dassert]. destruct (Nat.eqb_spec (length a) (length b)); [contradiction|reflexivity].
Qed.
