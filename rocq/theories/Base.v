(** Shared vocabulary of the model: bytes, machine integers, results, list helpers.
    Nothing here models a particular function of /repo; each [M_*.v] file cites its source. *)
From Coq Require Export List ZArith NArith Lia Bool.
From Coq Require Export Strings.Byte.
From Coq Require Import ZifyBool ZifyNat ZifyN.
Export ListNotations.
#[export] Set Warnings "-notation-overridden".
Open Scope Z_scope.

(** ** Bytes *)

Notation bytes := (list byte).

(** value of a [u8] *)
Definition b2z (b : byte) : Z := Z.of_N (Byte.to_N b).

(** [x as u8] *)
Definition z2b (z : Z) : byte :=
  match Byte.of_N (Z.to_N (z mod 256)) with Some b => b | None => x00 end.

Definition beqb (a b : byte) : bool := Z.eqb (b2z a) (b2z b).

(** [a ^ b] on [u8] *)
Definition bxor (a b : byte) : byte := z2b (Z.lxor (b2z a) (b2z b)).

Definition zeros (n : nat) : bytes := repeat x00 n.

(** length as an integer ([len()] as [usize]/[u64]) *)
Definition zlen {A} (l : list A) : Z := Z.of_nat (length l).

(** ** Positional notation *)

(** [n]-byte big-endian representation of [z mod 256^n] *)
Fixpoint be (n : nat) (z : Z) : bytes :=
  match n with
  | O => []
  | S k => z2b (z / 256 ^ Z.of_nat k) :: be k z
  end.

(** [n]-byte little-endian representation of [z mod 256^n] *)
Fixpoint le (n : nat) (z : Z) : bytes :=
  match n with
  | O => []
  | S k => z2b z :: le k (z / 256)
  end.

Fixpoint le_val (bs : bytes) : Z :=
  match bs with
  | [] => 0
  | b :: r => b2z b + 256 * le_val r
  end.

Fixpoint be_val_acc (acc : Z) (bs : bytes) : Z :=
  match bs with
  | [] => acc
  | b :: r => be_val_acc (acc * 256 + b2z b) r
  end.
Definition be_val (bs : bytes) : Z := be_val_acc 0 bs.

(** ** Build mode, errors, results *)

(** [Debug]: arithmetic overflow and failing [debug_assert!] panic.
    [Release]: arithmetic wraps, [debug_assert!] is not evaluated. *)
Inductive mode := Debug | Release.

(** src/tls_result.rs:6-19 *)
Inductive errkind :=
| UnexpectedMessage | BadRecordMac | RecordOverflow | IllegalParameter
| DecodeError | DecryptError | InternalError | IoFailure | AlertReceived.

(** [TlsResult], with panics and divergence as explicit outcomes. *)
Inductive res (A : Type) :=
| Ok (a : A)
| Err (k : errkind)
| Panic
| Diverge.
Arguments Ok {A} _. Arguments Err {A} _. Arguments Panic {A}. Arguments Diverge {A}.

Definition rbind {A B} (r : res A) (f : A -> res B) : res B :=
  match r with Ok a => f a | Err k => Err k | Panic => Panic | Diverge => Diverge end.

Notation "'let*' p := e 'in' k" := (rbind e (fun p => k))
  (at level 200, p strict pattern, e at level 100, k at level 200, right associativity).

(** state monad over [res]: the state is returned on every outcome *)
Definition M (S A : Type) := S -> res A * S.
Definition mret {S A} (a : A) : M S A := fun s => (Ok a, s).
Definition mfail {S A} (r : res A) : M S A := fun s => (r, s).
Definition mbind {S A B} (m : M S A) (f : A -> M S B) : M S B :=
  fun s => match m s with
           | (Ok a, s') => f a s'
           | (Err k, s') => (Err k, s')
           | (Panic, s') => (Panic, s')
           | (Diverge, s') => (Diverge, s')
           end.
Definition mlift {S A} (r : res A) : M S A := fun s => (r, s).

Notation "'do*' p := e 'in' k" := (mbind e (fun p => k))
  (at level 200, p strict pattern, e at level 100, k at level 200, right associativity).

(** [debug_assert!(c)] *)
Definition dassert (m : mode) (c : bool) : res unit :=
  match m with Debug => if c then Ok tt else Panic | Release => Ok tt end.

(** checked arithmetic on an unsigned type of [w] bits *)
Definition ck (m : mode) (w : Z) (x : Z) : res Z :=
  if (0 <=? x) && (x <? 2 ^ w) then Ok x
  else match m with Debug => Panic | Release => Ok (x mod 2 ^ w) end.

(** ** Lists *)

(** [slice.chunks(k)]; [fuel] is at least the number of chunks *)
Fixpoint chunks_fuel {A} (fuel k : nat) (l : list A) : list (list A) :=
  match fuel with
  | O => []
  | S f => match l with
           | [] => []
           | _ => firstn k l :: chunks_fuel f k (skipn k l)
           end
  end.
Definition chunks {A} (k : nat) (l : list A) : list (list A) :=
  chunks_fuel (length l) k l.

(** [a.iter().zip(b).map(^)]: length of the shorter *)
Fixpoint xor_zip (a b : bytes) : bytes :=
  match a, b with
  | x :: a', y :: b' => bxor x y :: xor_zip a' b'
  | _, _ => []
  end.

(** in-place [a[i] ^= b[i]] for [i] below both lengths; the rest of [a] is kept *)
Fixpoint xor_into (a b : bytes) : bytes :=
  match a, b with
  | x :: a', y :: b' => bxor x y :: xor_into a' b'
  | _, _ => a
  end.

(** replace index [i] *)
Fixpoint upd {A} (i : nat) (x : A) (l : list A) : list A :=
  match l, i with
  | [], _ => []
  | _ :: r, O => x :: r
  | y :: r, S k => y :: upd k x r
  end.

(** ** Lemmas *)

Lemma b2z_range b : 0 <= b2z b < 256.
Proof.
  unfold b2z. pose proof (Byte.to_N_bounded b). lia.
Qed.

Lemma b2z_z2b z : b2z (z2b z) = z mod 256.
Proof.
  unfold z2b, b2z.
  assert (H : 0 <= z mod 256 < 256) by (apply Z.mod_pos_bound; lia).
  destruct (Byte.of_N (Z.to_N (z mod 256))) as [b|] eqn:E.
  - apply Byte.to_of_N in E. rewrite E. lia.
  - apply Byte.of_N_None_iff in E. lia.
Qed.

Lemma z2b_b2z b : z2b (b2z b) = b.
Proof.
  unfold z2b. pose proof (b2z_range b) as H. rewrite Z.mod_small by lia.
  unfold b2z. rewrite N2Z.id. rewrite Byte.of_to_N. reflexivity.
Qed.

Lemma b2z_inj a b : b2z a = b2z b -> a = b.
Proof. intros H. rewrite <- (z2b_b2z a), <- (z2b_b2z b), H. reflexivity. Qed.

Lemma beqb_eq a b : beqb a b = true <-> a = b.
Proof.
  unfold beqb. rewrite Z.eqb_eq. split; [apply b2z_inj | intros ->; reflexivity].
Qed.

Lemma z2b_mod z : z2b (z mod 256) = z2b z.
Proof. unfold z2b. rewrite Z.mod_mod by lia. reflexivity. Qed.

Lemma z2b_eq_mod a b : a mod 256 = b mod 256 -> z2b a = z2b b.
Proof. intros H. rewrite <- (z2b_mod a), <- (z2b_mod b), H. reflexivity. Qed.

Lemma lxor_byte_range a b : 0 <= a < 256 -> 0 <= b < 256 -> 0 <= Z.lxor a b < 256.
Proof.
  intros Ha Hb. split; [apply Z.lxor_nonneg; lia|].
  destruct (Z.eq_dec (Z.lxor a b) 0) as [E|E]; [lia|].
  assert (Hp : 0 < Z.lxor a b).
  { assert (0 <= Z.lxor a b) by (apply Z.lxor_nonneg; lia). lia. }
  apply (Z.log2_lt_pow2 _ 8); [exact Hp|].
  eapply Z.le_lt_trans; [apply Z.log2_lxor; lia|].
  apply Z.max_lub_lt.
  - destruct (Z.eq_dec a 0) as [->|]; [cbn; lia|]. apply (Z.log2_lt_pow2 _ 8); lia.
  - destruct (Z.eq_dec b 0) as [->|]; [cbn; lia|]. apply (Z.log2_lt_pow2 _ 8); lia.
Qed.

Lemma b2z_bxor a b : b2z (bxor a b) = Z.lxor (b2z a) (b2z b).
Proof.
  unfold bxor. rewrite b2z_z2b. apply Z.mod_small.
  apply lxor_byte_range; apply b2z_range.
Qed.

Lemma bxor_comm a b : bxor a b = bxor b a.
Proof. unfold bxor. rewrite Z.lxor_comm. reflexivity. Qed.

Lemma bxor_assoc a b c : bxor a (bxor b c) = bxor (bxor a b) c.
Proof. apply b2z_inj. rewrite !b2z_bxor. rewrite Z.lxor_assoc. reflexivity. Qed.

Lemma bxor_nilpotent a : bxor a a = x00.
Proof. apply b2z_inj. rewrite b2z_bxor, Z.lxor_nilpotent. reflexivity. Qed.

Lemma bxor_0_l a : bxor x00 a = a.
Proof. apply b2z_inj. rewrite b2z_bxor. change (b2z x00) with 0. apply Z.lxor_0_l. Qed.

Lemma bxor_0_r a : bxor a x00 = a.
Proof. rewrite bxor_comm. apply bxor_0_l. Qed.

Lemma bxor_cancel_l a b : bxor a (bxor a b) = b.
Proof. rewrite bxor_assoc, bxor_nilpotent, bxor_0_l. reflexivity. Qed.

Lemma bxor_cancel_r a b : bxor (bxor a b) b = a.
Proof. rewrite <- bxor_assoc, bxor_nilpotent, bxor_0_r. reflexivity. Qed.

Lemma bxor_eq_0 a b : bxor a b = x00 -> a = b.
Proof.
  intros H. assert (E : bxor (bxor a b) b = b) by (rewrite H; apply bxor_0_l).
  rewrite bxor_cancel_r in E. exact E.
Qed.

(** *** [be] / [le] *)

Lemma be_length n z : length (be n z) = n.
Proof. induction n as [|n IH]; cbn [be length]; [reflexivity|]. rewrite IH. reflexivity. Qed.

Lemma le_length n z : length (le n z) = n.
Proof. revert z; induction n as [|n IH]; intros z; cbn [le length]; [reflexivity|]. rewrite IH. reflexivity. Qed.

Lemma be_val_acc_spec bs acc : be_val_acc acc bs = acc * 256 ^ zlen bs + be_val bs.
Proof.
  unfold be_val. revert acc. induction bs as [|b bs IH]; intros acc; cbn [be_val_acc].
  - unfold zlen; cbn. lia.
  - rewrite IH. rewrite (IH (0 * 256 + b2z b)).
    unfold zlen. cbn [length]. rewrite Nat2Z.inj_succ, Z.pow_succ_r by lia. lia.
Qed.

Lemma be_val_nil : be_val [] = 0.
Proof. reflexivity. Qed.

Lemma be_val_cons b bs : be_val (b :: bs) = b2z b * 256 ^ zlen bs + be_val bs.
Proof. unfold be_val at 1. cbn [be_val_acc]. rewrite be_val_acc_spec. lia. Qed.

Lemma be_val_range bs : 0 <= be_val bs < 256 ^ zlen bs.
Proof.
  induction bs as [|b bs IH].
  - rewrite be_val_nil. cbn. lia.
  - rewrite be_val_cons. pose proof (b2z_range b).
    unfold zlen in *. cbn [length]. rewrite Nat2Z.inj_succ, Z.pow_succ_r by lia. nia.
Qed.

Lemma le_val_range bs : 0 <= le_val bs < 256 ^ zlen bs.
Proof.
  induction bs as [|b bs IH]; cbn [le_val].
  - cbn; lia.
  - pose proof (b2z_range b).
    unfold zlen in *. cbn [length]. rewrite Nat2Z.inj_succ, Z.pow_succ_r by lia. nia.
Qed.

Lemma be_val_be n z : be_val (be n z) = z mod 256 ^ Z.of_nat n.
Proof.
  induction n as [|n IH]; cbn [be].
  - rewrite be_val_nil. cbn. rewrite Z.mod_1_r. reflexivity.
  - rewrite be_val_cons, IH. unfold zlen. rewrite be_length, b2z_z2b.
    rewrite Nat2Z.inj_succ, Z.pow_succ_r by lia.
    rewrite (Z.mul_comm 256). rewrite Z.rem_mul_r by lia. lia.
Qed.

Lemma le_val_le n z : le_val (le n z) = z mod 256 ^ Z.of_nat n.
Proof.
  revert z; induction n as [|n IH]; intros z; cbn [le le_val].
  - cbn. rewrite Z.mod_1_r. reflexivity.
  - rewrite IH, b2z_z2b. rewrite Nat2Z.inj_succ, Z.pow_succ_r by lia.
    rewrite Z.rem_mul_r by lia. lia.
Qed.

Lemma le_le_val bs : le (length bs) (le_val bs) = bs.
Proof.
  induction bs as [|b bs IH]; cbn [length le le_val]; [reflexivity|].
  f_equal.
  - rewrite <- (z2b_mod (b2z b + 256 * le_val bs)).
    replace ((b2z b + 256 * le_val bs) mod 256) with (b2z b); [apply z2b_b2z|].
    rewrite Z.mul_comm, Z_mod_plus_full. symmetry. apply Z.mod_small, b2z_range.
  - replace ((b2z b + 256 * le_val bs) / 256) with (le_val bs); [exact IH|].
    rewrite Z.mul_comm, Z_div_plus_full by lia.
    rewrite Z.div_small by apply b2z_range. lia.
Qed.

Lemma be_mod n k z : (n <= k)%nat -> be n (z mod 256 ^ Z.of_nat k) = be n z.
Proof.
  revert z. induction n as [|n IH]; intros z Hk; cbn [be]; [reflexivity|].
  f_equal.
  - apply z2b_eq_mod.
    replace (Z.of_nat k) with (Z.of_nat (S n) + Z.of_nat (k - S n)) by lia.
    rewrite Z.pow_add_r by lia.
    rewrite Nat2Z.inj_succ, Z.pow_succ_r by lia.
    set (q := 256 ^ Z.of_nat n). set (w := 256 ^ Z.of_nat (k - S n)).
    assert (Hq : 0 < q) by (apply Z.pow_pos_nonneg; lia).
    assert (Hw : 0 < w) by (apply Z.pow_pos_nonneg; lia).
    rewrite (Z.mul_comm 256 q). rewrite <- Z.mul_assoc.
    rewrite (Z.rem_mul_r z q (256 * w)) by lia.
    rewrite (Z.mul_comm q), Z_div_plus_full by lia.
    rewrite (Z.div_small (z mod q)) by (apply Z.mod_pos_bound; lia).
    cbn [Z.add]. rewrite Z.rem_mul_r by lia.
    rewrite Z.mul_comm, Z_mod_plus_full. rewrite Z.mod_mod by lia. reflexivity.
  - apply IH. lia.
Qed.

Lemma be_be_val bs : be (length bs) (be_val bs) = bs.
Proof.
  induction bs as [|b bs IH]; cbn [length be]; [reflexivity|].
  rewrite be_val_cons. unfold zlen.
  pose proof (be_val_range bs) as HR. unfold zlen in HR.
  f_equal.
  - rewrite Z.div_add_l by lia. rewrite (Z.div_small (be_val bs)) by lia.
    rewrite Z.add_0_r. apply z2b_b2z.
  - rewrite <- (be_mod (length bs) (length bs)) by lia.
    rewrite Z.add_comm, Z_mod_plus_full. rewrite Z.mod_small by lia. exact IH.
Qed.

Lemma be_inj n a b :
  0 <= a < 256 ^ Z.of_nat n -> 0 <= b < 256 ^ Z.of_nat n -> be n a = be n b -> a = b.
Proof.
  intros Ha Hb H. apply (f_equal be_val) in H. rewrite !be_val_be in H.
  rewrite !Z.mod_small in H by assumption. exact H.
Qed.

Lemma le_inj n a b :
  0 <= a < 256 ^ Z.of_nat n -> 0 <= b < 256 ^ Z.of_nat n -> le n a = le n b -> a = b.
Proof.
  intros Ha Hb H. apply (f_equal le_val) in H. rewrite !le_val_le in H.
  rewrite !Z.mod_small in H by assumption. exact H.
Qed.

(** *** lists *)

Lemma zlen_nonneg {A} (l : list A) : 0 <= zlen l.
Proof. unfold zlen. lia. Qed.

Lemma zlen_app {A} (a b : list A) : zlen (a ++ b) = zlen a + zlen b.
Proof. unfold zlen. rewrite app_length. lia. Qed.

Lemma zlen_cons {A} (a : A) b : zlen (a :: b) = 1 + zlen b.
Proof. unfold zlen. cbn [length]. lia. Qed.

Lemma zlen_nil {A} : zlen (@nil A) = 0.
Proof. reflexivity. Qed.

Lemma zlen_be n z : zlen (be n z) = Z.of_nat n.
Proof. unfold zlen. rewrite be_length. reflexivity. Qed.

Lemma upd_length {A} i (x : A) l : length (upd i x l) = length l.
Proof. revert i; induction l as [|y l IH]; intros [|i]; cbn [upd length]; auto. Qed.

Lemma upd_nth_same {A} i (x d : A) l : (i < length l)%nat -> nth i (upd i x l) d = x.
Proof.
  revert i; induction l as [|y l IH]; intros [|i] H; cbn [upd length nth] in *; try lia; auto.
  apply IH. lia.
Qed.

Lemma upd_nth_other {A} i j (x d : A) l : i <> j -> nth j (upd i x l) d = nth j l d.
Proof.
  revert i j; induction l as [|y l IH]; intros [|i] [|j] H; cbn [upd nth]; auto; try lia.
Qed.

Lemma xor_zip_length a b : length (xor_zip a b) = Nat.min (length a) (length b).
Proof. revert b; induction a as [|x a IH]; intros [|y b]; cbn [xor_zip length Nat.min]; auto. Qed.

Lemma xor_into_length a b : length (xor_into a b) = length a.
Proof. revert b; induction a as [|x a IH]; intros [|y b]; cbn [xor_into length]; auto. Qed.

Lemma xor_into_inj a1 a2 b :
  length a1 = length a2 -> xor_into a1 b = xor_into a2 b -> a1 = a2.
Proof.
  revert a2 b; induction a1 as [|x a1 IH]; intros [|y a2] [|z b]; cbn [xor_into length];
    intros HL H; try discriminate; auto.
  injection H as H1 H2. f_equal.
  - rewrite <- (bxor_cancel_r x z), <- (bxor_cancel_r y z), H1. reflexivity.
  - apply (IH _ b); [lia|assumption].
Qed.

Lemma chunks_fuel_enough {A} f1 f2 k (l : list A) :
  (0 < k)%nat -> (length l <= f1)%nat -> (length l <= f2)%nat ->
  chunks_fuel f1 k l = chunks_fuel f2 k l.
Proof.
  revert f2 l; induction f1 as [|f1 IH]; intros [|f2] [|x l] Hk H1 H2;
    cbn [chunks_fuel length] in *; try lia; auto.
  f_equal. apply IH; auto; rewrite skipn_length; cbn [length]; lia.
Qed.

Lemma chunks_nil {A} k : chunks k (@nil A) = [].
Proof. reflexivity. Qed.

Lemma chunks_cons {A} k (l : list A) :
  (0 < k)%nat -> l <> [] -> chunks k l = firstn k l :: chunks k (skipn k l).
Proof.
  intros Hk Hl. unfold chunks. destruct l as [|x l]; [contradiction|].
  cbn [length chunks_fuel]. f_equal. apply chunks_fuel_enough; auto;
    rewrite skipn_length; cbn [length]; lia.
Qed.

(** induction following [chunks] *)
Lemma chunks_ind {A} k (Hk : (0 < k)%nat) (P : list A -> Prop) :
  P [] -> (forall l, l <> [] -> P (skipn k l) -> P l) -> forall l, P l.
Proof.
  intros H0 HS l. remember (length l) as n eqn:En. revert l En.
  induction n as [n IH] using lt_wf_ind. intros l En.
  destruct l as [|x l]; [exact H0|]. apply HS; [discriminate|].
  eapply IH; [|reflexivity]. rewrite skipn_length. subst n. cbn [length]. lia.
Qed.

Lemma chunks_concat {A} k (l : list A) : (0 < k)%nat -> concat (chunks k l) = l.
Proof.
  intros Hk. induction l as [|l Hl IH] using (chunks_ind k Hk); auto.
  rewrite chunks_cons by assumption. cbn [concat]. rewrite IH. apply firstn_skipn.
Qed.

Lemma chunks_lengths {A} k (l : list A) :
  (0 < k)%nat -> Forall (fun c => (0 < length c <= k)%nat) (chunks k l).
Proof.
  intros Hk. induction l as [|l Hl IH] using (chunks_ind k Hk); auto.
  - constructor.
  - rewrite chunks_cons by assumption. constructor; auto.
    rewrite firstn_length. destruct l; [contradiction|cbn [length]; lia].
Qed.

Lemma chunks_app {A} k (a b : list A) :
  (0 < k)%nat -> (length a mod k = 0)%nat -> chunks k (a ++ b) = chunks k a ++ chunks k b.
Proof.
  intros Hk. induction a as [|a Ha IH] using (chunks_ind k Hk); auto.
  intros Hm.
  assert (HL : (k <= length a)%nat).
  { destruct (Nat.lt_ge_cases (length a) k) as [H|H]; auto.
    rewrite Nat.mod_small in Hm by assumption. destruct a; [contradiction|cbn in Hm; lia]. }
  rewrite chunks_cons; auto; [|destruct a; [contradiction|discriminate]].
  rewrite (chunks_cons k a) by assumption.
  cbn [app]. rewrite firstn_app, skipn_app.
  replace (k - length a)%nat with 0%nat by lia. cbn [firstn skipn]. rewrite app_nil_r.
  f_equal. apply IH. rewrite skipn_length.
  apply Nat.mod_divide in Hm; [|lia]. destruct Hm as [q Hq].
  apply Nat.mod_divide; [lia|]. exists (q - 1)%nat. nia.
Qed.

Lemma app_inj_length {A} (a b c d : list A) :
  length a = length c -> a ++ b = c ++ d -> a = c /\ b = d.
Proof.
  revert c; induction a as [|x a IH]; intros [|y c] HL H; cbn in *; try discriminate; auto.
  injection H as -> H. injection HL as HL. destruct (IH _ HL H) as [-> ->]. auto.
Qed.
