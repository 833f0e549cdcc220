(** Proofs about the programs of [M_Leak.v] for src/util.rs and src/crypto/p256.rs. *)
From Verif Require Import M_Leak P_Leak P_Util.
From Coq Require Import ZifyBool ZifyNat ZifyN.
Local Open Scope Z_scope.

Definition len8 (a : list Z) : Prop := length a = 8%nat.
Definition len8c (s : list Z * Z) : Prop := length (fst s) = 8%nat.
Definition points8 (p : point) : Prop := len8 (px p) /\ len8 (py p) /\ len8 (pz p).
Definition tp (p : point) : tpoint Z := TPoint (px p) (py p) (pz p).

Lemma in_seq_lt i n : In i (seq 0 n) -> (i < n)%nat.
Proof. intros H. apply in_seq in H. lia. Qed.

(** the operations with their values written out *)
Lemma do_shr n x : does (un (Shr n) x) (Ok (Z.shiftr x n)) yes. Proof. exact (does_un (Shr n) x). Qed.
Lemma do_shl n x : does (un (Shl n) x) (Ok (wshl x n)) yes. Proof. exact (does_un (Shl n) x). Qed.
Lemma do_low n x : does (un (Low n) x) (Ok (Z.land x (2 ^ n - 1))) yes. Proof. exact (does_un (Low n) x). Qed.
Lemma do_xor x y : does (bin Xor x y) (Ok (Z.lxor x y)) yes. Proof. exact (does_bin Xor x y). Qed.
Lemma do_or x y : does (bin Or x y) (Ok (Z.lor x y)) yes. Proof. exact (does_bin Or x y). Qed.
Lemma do_and x y : does (bin And x y) (Ok (Z.land x y)) yes. Proof. exact (does_bin And x y). Qed.
Lemma do_add n x y : does (bin (Add n) x y) (Ok ((x + y) mod 2 ^ n)) yes. Proof. exact (does_bin (Add n) x y). Qed.
Lemma do_sub n x y : does (bin (Sub n) x y) (Ok ((x - y) mod 2 ^ n)) yes. Proof. exact (does_bin (Sub n) x y). Qed.
Lemma do_mul n x y : does (bin (Mul n) x y) (Ok ((x * y) mod 2 ^ n)) yes. Proof. exact (does_bin (Mul n) x y). Qed.
Ltac op := first [apply does_const | apply do_shr | apply do_shl | apply do_low | apply do_xor | apply do_or | apply do_and
  | apply do_add | apply do_sub | apply do_mul].

(** one step of a straight-line program whose model counterpart is a [let] *)
Ltac idx := first [assumption | lia | (unfold len8 in *; lia)].
Ltac one :=
  first [ eapply does_let; [op|intros _]
        | eapply does_let; [apply does_load; idx|intros _] ].

(** ** [crypto_compare] *)
Lemma compare_acc a b i d : does (foldp (fun diff i => let! x := load a i in let! y := load b i in let! e := bin Xor x y in bin Or diff e)
    (seq i (length a - i)) d) (if (length b <? length a)%nat then Panic else
      Ok (fold_left (fun d i => Z.lor d (Z.lxor (at_ a i) (at_ b i))) (seq i (length a - i)) d)) yes \/ (length b < length a)%nat.
Proof.
  destruct (Nat.ltb_spec (length b) (length a)) as [L|L]; [right; exact L|left].
  apply (does_fold _ (fun d i => Z.lor d (Z.lxor (at_ a i) (at_ b i))) yes); [|exact I].
  intros s j J _. apply in_seq in J. eapply does_let; [apply does_load; lia|intros _]. eapply does_let; [apply does_load; lia|intros _].
  one. op.
Qed.
Lemma compare_loop_fold : forall a b d, (length a <= length b)%nat ->
  compare_loop d a b = Ok (fold_left (fun d i => Z.lor d (Z.lxor (at_ (map b2z a) i) (at_ (map b2z b) i))) (seq 0 (length a)) d).
Proof.
  induction a as [|x a IH]; intros [|y b] d L; cbn [length] in L; try lia; try reflexivity.
  cbn [compare_loop length seq fold_left]. rewrite IH by lia. rewrite <- seq_shift. f_equal.
  change (Z.lor d (Z.lxor (at_ (map b2z (x :: a)) 0) (at_ (map b2z (y :: b)) 0))) with (Z.lor d (Z.lxor (b2z x) (b2z y))).
  generalize (Z.lor d (Z.lxor (b2z x) (b2z y))). generalize (seq 0 (length a)) as l. clear.
  induction l as [|i l IH]; intros e; [reflexivity|]. cbn [map fold_left]. rewrite IH. reflexivity.
Qed.
Lemma compare_loop_short : forall a b d, (length b < length a)%nat -> compare_loop d a b = Panic.
Proof. induction a as [|x a IH]; intros [|y b] d L; cbn [length] in L; try lia; cbn [compare_loop]; [reflexivity|]. apply IH. lia. Qed.
Lemma fold_short (a b : list Z) : forall n i d, (i + n = length a)%nat -> (length b < length a)%nat ->
  run (foldp (fun diff i => let! x := load a i in let! y := load b i in let! e := bin Xor x y in bin Or diff e) (seq i n) d) = Panic \/ (length b < i)%nat.
Proof.
  induction n as [|n IH]; intros i d E L; [right; lia|]. cbn [seq foldp]. rewrite !run_bind. cbn [load run].
  destruct (nth_error a i) as [x|] eqn:Ea; [|left; reflexivity]. cbn [rbind]. rewrite run_bind. cbn [load run].
  destruct (nth_error b i) as [y|] eqn:Eb; [|left; reflexivity]. cbn [rbind bin pbind run].
  destruct (IH (S i) (op2_val Or d (op2_val Xor x y)) ltac:(lia) L) as [H|H]; [left; exact H|].
  exfalso. assert (i < length b)%nat by (apply nth_error_Some; congruence). lia.
Qed.

(** the program returns what the first model of [crypto_compare] returns *)
Definition word (r : res bool) : res Z := let* b := r in Ok (if b then 1 else 0).
Lemma compare_same_result m a b : run (t_crypto_compare m (map b2z a) (map b2z b)) = word (crypto_compare m a b).
Proof.
  unfold t_crypto_compare, crypto_compare. rewrite run_bind, !map_length.
  replace (run match m with Debug => if Nat.eqb (length a) (length b) then Ret tt else Fail | Release => Ret tt end)
    with (dassert m (Nat.eqb (length a) (length b))) by (destruct m; [destruct (Nat.eqb _ _)|]; reflexivity).
  destruct (dassert m (Nat.eqb (length a) (length b))) as [[]| | |]; try reflexivity. cbn [rbind].
  rewrite run_bind. cbn [const run rbind]. rewrite run_bind.
  destruct (Nat.ltb_spec (length b) (length a)) as [L|L].
  - rewrite (compare_loop_short a b 0 L).
    destruct (fold_short (map b2z a) (map b2z b) (length a) 0 0 ltac:(rewrite map_length; lia) ltac:(rewrite !map_length; lia)) as [H|H]; [|lia].
    rewrite H. reflexivity.
  - rewrite (compare_loop_fold a b 0 L). cbn [rbind].
    destruct (compare_acc (map b2z a) (map b2z b) 0 0) as [[H _]|H]; [|rewrite !map_length in H; lia].
    rewrite !map_length, Nat.sub_0_r in H. rewrite H. destruct (Nat.ltb_spec (length b) (length a)); [lia|]. cbn [rbind un bin const pbind run op1_val op2_val op2_exact word].
    destruct (_ =? 0); reflexivity.
Qed.

(** ** [Int256] *)
Lemma does_compare a b : len8 a -> len8 b -> does (t_compare a b) (Ok (icompare a b)) yes.
Proof.
  unfold len8. intros A B. unfold t_compare. one.
  eapply does_let.
  { apply (does_fold _ (fun d i => Z.lor d (Z.lxor (at_ a i) (at_ b i))) yes); [|exact I].
    intros s i Hi _. apply in_seq_lt in Hi. one. one. one. op. }
  intros _. unfold icompare, wshr. set (D := fold_left _ (seq 0 8) 0). clearbody D. cbv zeta. repeat one. op.
Qed.
Lemma does_choose f a b : len8 a -> len8 b -> does (t_choose f a b) (Ok (ichoose f a b)) len8.
Proof.
  unfold len8. intros A B. unfold t_choose. eapply does_let; [apply does_consts|]. intros _.
  apply (does_fold _ (fun v i => upd i (Z.lxor (at_ a i) (wmul f (Z.lxor (at_ a i) (at_ b i)))) v) (fun v => length v = 8%nat)); [|reflexivity].
  intros v i Hi V. apply in_seq_lt in Hi. repeat one. exact (does_store 8 i _ v V Hi).
Qed.
Lemma does_add_no_reduce a b : len8 a -> len8 b -> does (t_add_no_reduce a b) (Ok (add_no_reduce a b)) len8c.
Proof.
  unfold len8. intros A B. unfold t_add_no_reduce, add_no_reduce. eapply does_let; [apply does_consts|]. intros _. one.
  eapply does_let.
  { apply (does_fold _ (add_step a b) len8c); [|reflexivity].
    intros [v c] i Hi V. apply in_seq_lt in Hi. cbn [add_step]; unfold w64, to_w32; cbv zeta. repeat one. eapply does_let; [apply (does_store 8); [exact V|exact Hi]|].
    intros V'. one. apply does_ret. exact V'. }
  unfold int256. destruct (fold_left (add_step a b) (seq 0 8) (ZERO, 0)) as [v c]; intros H. one. apply does_ret. exact H.
Qed.
Lemma does_sub_no_reduce a b : len8 a -> len8 b -> does (t_sub_no_reduce a b) (Ok (sub_no_reduce a b)) len8c.
Proof.
  unfold len8. intros A B. unfold t_sub_no_reduce, sub_no_reduce. eapply does_let; [apply does_consts|]. intros _. one.
  eapply does_let.
  { apply (does_fold _ (sub_step a b) len8c); [|reflexivity].
    intros [v c] i Hi V. apply in_seq_lt in Hi. cbn [sub_step]; unfold w64, to_w32; cbv zeta. repeat one. eapply does_let; [apply (does_store 8); [exact V|exact Hi]|].
    intros V'. apply does_ret. exact V'. }
  unfold int256. destruct (fold_left (sub_step a b) (seq 0 8) (ZERO, 0)) as [v c]; intros H. one. apply does_ret. exact H.
Qed.
Lemma does_not_0_1 m x y : does (t_not_0_1 m x y) (dassert m (negb ((x =? 0) && (y =? 1)))) yes.
Proof.
  split; [|intros; exact I]. destruct m; [|reflexivity]. cbn [t_not_0_1 jump pbind run dassert].
  destruct (x =? 0); [|reflexivity]. cbn [pbind jump run]. destruct (y =? 1); reflexivity.
Qed.
Lemma len8_P256 : len8 P256.
Proof. reflexivity. Qed.
Lemma does_reduce_once m a c : len8 a -> does (t_reduce_once m a c) (reduce_once m a c) len8.
Proof.
  intros A. unfold t_reduce_once, reduce_once. eapply does_let; [apply does_consts|]. intros _.
  eapply does_let; [apply does_sub_no_reduce; [exact A|exact len8_P256]|]. unfold int256. destruct (sub_no_reduce a P256) as [v cs]; intros H. eapply does_then; [apply does_not_0_1|]. intros _ _ _. one. apply does_choose; [exact H|exact A].
Qed.
Lemma does_reduce_once_zero m a : len8 a -> does (t_reduce_once_zero m a) (reduce_once_zero m a) len8.
Proof. intros A. unfold t_reduce_once_zero. one. apply does_reduce_once. exact A. Qed.
Lemma does_add m a b : len8 a -> len8 b -> does (t_add m a b) (iadd m a b) len8.
Proof.
  intros A B. unfold t_add, iadd. eapply does_let; [apply does_add_no_reduce; [exact A|exact B]|]. unfold int256. destruct (add_no_reduce a b) as [v c]; intros H. apply does_reduce_once. exact H.
Qed.
Lemma does_double m a : len8 a -> does (t_double m a) (idouble m a) len8.
Proof. intros A. apply does_add; exact A. Qed.
Lemma does_sub m a b : len8 a -> len8 b -> does (t_sub m a b) (isub m a b) len8.
Proof.
  intros A B. unfold t_sub, isub. eapply does_let; [apply does_sub_no_reduce; [exact A|exact B]|]. unfold int256. destruct (sub_no_reduce a b) as [v c]; intros H. eapply does_let; [apply does_consts|]. intros _.
  eapply does_let; [apply does_add_no_reduce; [exact H|exact len8_P256]|]. unfold int256. destruct (add_no_reduce v P256) as [v2 c2]; intros H2. eapply does_then; [apply does_not_0_1|]. intros _ _ _. apply does_choose; [exact H|exact H2].
Qed.

(** ** Multiplication *)
Definition len16 (a : list Z) : Prop := length a = 16%nat.
Lemma in_ijs i j : In (i, j) ijs -> (i < 8 /\ j < 8)%nat.
Proof. unfold ijs. intros H. apply in_prod_iff in H as [H1 H2]. apply in_seq in H1, H2. lia. Qed.
Lemma does_mul_step a b w ij : len8 a -> len8 b -> len16 w -> In ij ijs -> does (t_mul_step a b w ij) (Ok (mul_step a b w ij)) len16.
Proof.
  unfold len8, len16. intros A B V H. destruct ij as [i j]. apply in_ijs in H as [I J]. cbn [t_mul_step mul_step]; unfold w64, to_w32; cbv zeta. repeat one.
  eapply does_let; [apply (does_store 16); [exact V|lia]|]. intros V'. repeat one. apply (does_store 16); [exact V'|lia].
Qed.
Lemma does_carry_step w st i : len16 w -> length (fst st) = 16%nat -> (i < 16)%nat ->
  does (t_carry_step w st i) (Ok (carry_step w st i)) (fun s => length (fst s) = 16%nat).
Proof.
  unfold len16. intros V S H. destruct st as [v c]. cbn [fst] in S. cbn [t_carry_step carry_step]; unfold w64, to_w32; cbv zeta. repeat one.
  eapply does_let; [apply (does_store 16); [exact S|lia]|]. intros V'. one. apply does_ret. exact V'.
Qed.
Lemma does_blit i j v k l buf : len16 v -> (i <= j <= 8)%nat -> (l <= 16)%nat -> (j - i = l - k)%nat -> len8 buf ->
  does (t_blit i j v k l buf) (Ok (blit i j (sub_ v k l) buf)) len8.
Proof.
  unfold len16, len8. intros V I L E B. split; [reflexivity|]. intros a H. injection H as <-. unfold blit, sub_.
  rewrite !app_length, !firstn_length, !skipn_length. lia.
Qed.
Lemma does_move i v k buf : len16 v -> (i < 8)%nat -> (k < 16)%nat -> len8 buf -> does (t_move i v k buf) (Ok (upd i (at_ v k) buf)) len8.
Proof. unfold len16, len8. intros V I K B. unfold t_move. one. apply does_store; [exact B|exact I]. Qed.
Ltac piece V :=
  eapply does_let; [apply does_consts|intros _]; repeat (eapply does_let; [first [apply does_blit; [exact V|lia|lia|lia|first [reflexivity|assumption]]
    | apply does_move; [exact V|lia|lia|assumption]]|intros ?]);
  eapply does_then; [apply does_reduce_once_zero; assumption|intros ? _ ?].
Lemma does_nist_reduce m v : len16 v -> does (t_nist_reduce m v) (nist_reduce m v) len8.
Proof.
  intros V. unfold t_nist_reduce, nist_reduce.
  piece V. piece V. piece V. piece V. piece V. piece V. piece V.
  eapply does_let; [apply does_consts|intros _]. repeat (eapply does_let; [apply does_blit; [exact V|lia|lia|lia|first [reflexivity|assumption]]|intros ?]).
  eapply does_let.
  { apply (does_fold _ (fun buf i => upd (i + 3) (at_ v (i + 8)) (upd i (at_ v (i + 13)) buf)) len8); [|assumption].
    intros s i Hi Hs. apply in_seq_lt in Hi. eapply does_let; [apply does_move; [exact V|lia|lia|exact Hs]|intros ?].
    apply does_move; [exact V|lia|lia|assumption]. }
  intros ?. eapply does_let; [apply does_move; [exact V|lia|lia|assumption]|intros ?].
  eapply does_then; [apply does_reduce_once_zero; assumption|intros ? _ ?].
  piece V.
  repeat (eapply does_then; [first [apply does_double; assumption | apply does_add; assumption]|intros ? _ ?]).
  apply does_sub; assumption.
Qed.
Lemma does_mult m a b : len8 a -> len8 b -> does (t_mult m a b) (imult m a b) len8.
Proof.
  intros A B. unfold t_mult, imult. eapply does_let; [apply does_consts|intros _].
  eapply does_let.
  { apply (does_fold _ (mul_step a b) len16); [|reflexivity]. intros s ij H S. apply does_mul_step; assumption. }
  intros Hw. eapply does_let; [apply does_consts|intros _]. one. eapply does_let.
  { apply (does_fold _ (carry_step (fold_left (mul_step a b) ijs (repeat 0 16))) (fun s => length (fst s) = 16%nat)); [|reflexivity].
    intros s i H S. apply in_seq_lt in H. apply does_carry_step; assumption. }
  cbv zeta. destruct (fold_left (carry_step _) (seq 0 16) (repeat 0 16, 0)) as [v c]; intros Hv. cbn [fst] in Hv.
  eapply does_then with (P := yes).
  { split; [|intros; exact I]. destruct m; [|reflexivity]. cbn [jump pbind run dassert]. destruct (c =? 0); reflexivity. }
  intros _ _ _. apply does_nist_reduce. exact Hv.
Qed.
Lemma does_square m a : len8 a -> does (t_square m a) (isquare m a) len8.
Proof. intros A. apply does_mult; exact A. Qed.
Lemma does_square_n m n : forall a i, len8 a -> does (foldp (fun y (_ : nat) => t_square m y) (seq i n) a) (square_n m a n) len8.
Proof.
  induction n as [|n IH]; intros a i A; [apply does_ret; exact A|]. cbn [seq foldp square_n].
  eapply does_then; [apply does_square; exact A|]. intros y _ Y. apply IH. exact Y.
Qed.
Lemma does_z_n m z n : len8 z -> does (t_z_n m z n) (z_n m z n) len8.
Proof. intros A. unfold t_z_n, z_n. eapply does_then; [apply does_square_n; exact A|]. intros y _ Y. apply does_mult; assumption. Qed.
Lemma does_z_1 m z a : len8 z -> len8 a -> does (t_z_1 m z a) (z_1 m z a) len8.
Proof. intros Z A. unfold t_z_1, z_1. eapply does_then; [apply does_square; exact Z|]. intros y _ Y. apply does_mult; assumption. Qed.
Lemma does_sqn m a n : len8 a -> does (t_square_n m a n) (square_n m a n) len8.
Proof. apply does_square_n. Qed.
#[local] Opaque t_square isquare t_mult imult t_square_n square_n t_z_n z_n t_z_1 z_1 t_add iadd t_sub isub t_compare icompare t_choose ichoose.
Ltac field :=
  lazymatch goal with
  | |- does (t_square _ _) _ _ => apply does_square; assumption
  | |- does (t_mult _ _ _) _ _ => apply does_mult; assumption
  | |- does (t_sub _ _ _) _ _ => apply does_sub; assumption
  | |- does (t_add _ _ _) _ _ => apply does_add; assumption
  | |- does (t_z_n _ _ _) _ _ => apply does_z_n; assumption
  | |- does (t_z_1 _ _ _) _ _ => apply does_z_1; assumption
  | |- does (t_square_n _ _ _) _ _ => apply does_sqn; assumption
  | |- _ => idtac
  end.
Ltac thens := repeat lazymatch goal with |- does (pbind _ _) (rbind _ _) _ => eapply does_then; [field; fail|intros ? _ ?] end.
Lemma does_inverse m a : len8 a -> does (t_inverse m a) (iinverse m a) len8.
Proof.
  intros A. unfold t_inverse, iinverse.
  thens. field.
Qed.
#[local] Opaque t_inverse iinverse.
Lemma does_half_step a v i : len8 a -> len8 v -> (i < 7)%nat -> does (t_half_step a v i) (Ok (half_step a v i)) len8.
Proof. unfold len8. intros A V I. unfold t_half_step, half_step, wshr. repeat one. apply (does_store 8); [exact V|lia]. Qed.
Lemma does_divide_by_2 a : len8 a -> does (t_divide_by_2 a) (Ok (divide_by_2 a)) len8.
Proof.
  intros A. unfold t_divide_by_2, divide_by_2. repeat one. eapply does_let; [apply does_consts|intros _].
  eapply does_let.
  { apply (does_fold _ (half_step a) len8); [|reflexivity]. intros s i H S. apply in_seq_lt in H. apply does_half_step; assumption. }
  intros He. repeat one. eapply does_let; [apply (does_store 8); [exact He|lia]|intros He'].
  eapply does_let; [apply does_consts|intros _]. eapply does_let; [apply does_consts|intros _].
  eapply does_let; [apply does_add_no_reduce; [exact A|exact len8_P256]|]. unfold int256. destruct (add_no_reduce a P256) as [sp c]; intros Hs. unfold len8c in Hs. cbn [fst] in Hs. eapply does_let.
  { apply (does_fold _ (half_step sp) len8); [|reflexivity]. intros s i H S. apply in_seq_lt in H. apply does_half_step; assumption. }
  intros Ho. repeat one. eapply does_let; [apply (does_store 8); [exact Ho|lia]|intros Ho'].
  apply does_choose; assumption.
Qed.

#[local] Opaque t_divide_by_2 divide_by_2.
(** ** Points: the program's triple of arrays is the model's point *)
Definition doesp (p : prog Z (tpoint Z)) (r : res point) : Prop := run p = (let* a := r in Ok (tp a)) /\ forall a, r = Ok a -> points8 a.
Lemma doesp_bind {B} (p : prog Z (tpoint Z)) (k : tpoint Z -> prog Z B) r k' Q :
  doesp p r -> (forall a, points8 a -> does (k (tp a)) (k' a) Q) -> does (pbind p k) (rbind r k') Q.
Proof. intros [E HP] H. eapply (does_bind p k r k' tp (fun _ => True)); [exact E|auto|]. intros a Ea _. apply H, HP, Ea. Qed.
Lemma doesp_let {B} (p : prog Z (tpoint Z)) (k : tpoint Z -> prog Z B) v r Q :
  doesp p (Ok v) -> (points8 v -> does (k (tp v)) r Q) -> does (pbind p k) r Q.
Proof. intros [E HP] H. unfold does. rewrite run_bind, E. cbn [rbind]. exact (H (HP v eq_refl)). Qed.
(** the same rules when the whole program returns a point *)
Lemma doesp_pbind (p : prog Z (tpoint Z)) (k : tpoint Z -> prog Z (tpoint Z)) r k' :
  doesp p r -> (forall a, points8 a -> doesp (k (tp a)) (k' a)) -> doesp (pbind p k) (rbind r k').
Proof.
  intros [E HP] H. unfold doesp. rewrite run_bind, E. destruct r as [a|e| |]; cbn [rbind].
  - exact (H a (HP a eq_refl)).
  - split; [reflexivity|discriminate].
  - split; [reflexivity|discriminate].
  - split; [reflexivity|discriminate].
Qed.
Lemma doesp_plet (p : prog Z (tpoint Z)) (k : tpoint Z -> prog Z (tpoint Z)) v r :
  doesp p (Ok v) -> (points8 v -> doesp (k (tp v)) r) -> doesp (pbind p k) r.
Proof. intros [E HP] H. unfold doesp. rewrite run_bind, E. cbn [rbind]. exact (H (HP v eq_refl)). Qed.
Lemma doesp_then {A} (p : prog Z A) (k : A -> prog Z (tpoint Z)) r k' P :
  does p r P -> (forall a, P a -> doesp (k a) (k' a)) -> doesp (pbind p k) (rbind r k').
Proof.
  intros [E HP] H. unfold doesp. rewrite run_bind, E. destruct r as [a|e| |]; cbn [rbind].
  - exact (H a (HP a eq_refl)).
  - split; [reflexivity|discriminate].
  - split; [reflexivity|discriminate].
  - split; [reflexivity|discriminate].
Qed.
Lemma doesp_let1 {A} (p : prog Z A) (k : A -> prog Z (tpoint Z)) v r P :
  does p (Ok v) P -> (P v -> doesp (k v) r) -> doesp (pbind p k) r.
Proof. intros [E HP] H. unfold doesp. rewrite run_bind, E. cbn [rbind]. exact (H (HP v eq_refl)). Qed.
Lemma doesp_ret p : points8 p -> doesp (Ret (tp p)) (Ok p).
Proof. intros H. split; [reflexivity|]. intros a E. injection E as <-. exact H. Qed.

Lemma infty8 : points8 INFTY.
Proof. repeat split. Qed.
Lemma doesp_INFTY : doesp t_INFTY (Ok INFTY).
Proof. unfold t_INFTY. repeat (eapply doesp_let1; [apply does_consts|intros _]). exact (doesp_ret INFTY infty8). Qed.
Lemma doesp_choose f p q : points8 p -> points8 q -> doesp (t_pchoose f (tp p) (tp q)) (Ok (pchoose f p q)).
Proof.
  intros (A & B & C) (D & E & F). unfold t_pchoose. cbn [tp tx ty tz].
  eapply doesp_let1; [apply does_choose; [exact A|exact D]|intros ?]. eapply doesp_let1; [apply does_choose; [exact B|exact E]|intros ?].
  eapply doesp_let1; [apply does_choose; [exact C|exact F]|intros ?]. apply (doesp_ret (pchoose f p q)). repeat split; assumption.
Qed.
Ltac thenp := repeat lazymatch goal with |- doesp (pbind _ _) (rbind _ _) => eapply doesp_then; [field; fail|intros ? ?] end.
Lemma doesp_double m p : points8 p -> doesp (t_pdouble m (tp p)) (pdouble m p).
Proof.
  intros (A & B & C). unfold t_pdouble, pdouble. cbn [tp tx ty tz].
  thenp.
  eapply doesp_let1; [apply does_consts|intros _]. eapply doesp_let1; [apply does_compare; [exact C|reflexivity]|intros _].
  eapply doesp_plet; [exact doesp_INFTY|intros _].
  match goal with |- doesp (t_pchoose _ _ (TPoint ?x ?y ?z)) _ => change (TPoint x y z) with (tp (Point x y z)) end.
  apply doesp_choose; [exact infty8|repeat split; assumption].
Qed.
Lemma doesp_add m p q : points8 p -> points8 q -> doesp (t_padd m (tp p) (tp q)) (ppadd m p q).
Proof.
  intros (A & B & C) (D & E & F). pose proof (conj A (conj B C) : points8 p) as PP. pose proof (conj D (conj E F) : points8 q) as QQ.
  unfold t_padd, ppadd. cbn [tp tx ty tz].
  do 2 (eapply doesp_let1; [apply does_consts|intros _]; eapply doesp_let1; [apply does_compare; [assumption|reflexivity]|intros _]).
  thenp.
  eapply doesp_let1; [apply does_divide_by_2; assumption|intros ?].
  thenp.
  do 2 (eapply doesp_let1; [apply does_consts|intros _]; eapply doesp_let1; [apply does_compare; [assumption|reflexivity]|intros _]).
  change (TPoint (px p) (py p) (pz p)) with (tp p). change (TPoint (px q) (py q) (pz q)) with (tp q).
  eapply doesp_pbind; [apply doesp_double; exact PP|]. intros dbl Hd.
  eapply doesp_let1; [op|intros _].
  match goal with |- context [t_pchoose _ _ (TPoint ?x ?y ?z)] => change (TPoint x y z) with (tp (Point x y z)) end.
  eapply doesp_plet; [apply doesp_choose; [exact Hd|repeat split; assumption]|intros ?].
  eapply doesp_let1; [op|intros _]. eapply doesp_let1; [op|intros _]. eapply doesp_let1; [op|intros _].
  eapply doesp_plet; [exact doesp_INFTY|intros _].
  eapply doesp_plet; [apply doesp_choose; [exact infty8|assumption]|intros ?].
  eapply doesp_plet; [apply doesp_choose; [exact QQ|assumption]|intros ?].
  apply doesp_choose; [exact PP|assumption].
Qed.
Lemma in_scalar_ijs i j : In (i, j) scalar_ijs -> (i < 7 /\ j < 8)%nat.
Proof. unfold scalar_ijs. intros H. apply in_prod_iff in H as [H1 H2]. apply in_rev in H1, H2. apply in_seq in H1, H2. lia. Qed.
Lemma doesp_scalar_step m p n ret ij : points8 p -> len8 n -> points8 ret -> In ij scalar_ijs ->
  doesp (t_scalar_step m (tp p) n (tp ret) ij) (scalar_step m p n ret ij).
Proof.
  intros P N R H. destruct ij as [i j]. apply in_scalar_ijs in H as [I J]. unfold t_scalar_step, scalar_step, len8 in *.
  eapply doesp_let1; [apply does_load; lia|intros _]. eapply doesp_let1; [op|intros _].
  eapply doesp_let1; [op|intros _]. eapply doesp_let1; [op|intros _].
  eapply doesp_pbind; [apply doesp_double; exact R|]. intros r2 R2. eapply doesp_pbind; [apply doesp_add; [exact R2|exact P]|]. intros r3 R3.
  apply doesp_choose; assumption.
Qed.
Lemma doesp_scalar_loop m p n : points8 p -> len8 n -> forall l ret, incl l scalar_ijs -> points8 ret ->
  doesp (foldp (t_scalar_step m (tp p) n) l (tp ret)) (scalar_loop m p n l ret).
Proof.
  intros P N. induction l as [|ij l IH]; intros ret L R; [apply doesp_ret; exact R|]. cbn [foldp scalar_loop].
  eapply doesp_pbind; [apply doesp_scalar_step; try assumption; apply L; left; reflexivity|]. intros r Hr. apply IH; [|exact Hr].
  intros x Hx. apply L. right. exact Hx.
Qed.
Lemma doesp_mult_scalar m p n : points8 p -> len8 n -> doesp (t_mult_scalar m (tp p) n) (mult_scalar m p n).
Proof.
  intros P N. unfold t_mult_scalar, mult_scalar. eapply doesp_plet; [exact doesp_INFTY|intros H].
  apply doesp_scalar_loop; [exact P|exact N|apply incl_refl|exact H].
Qed.
Lemma scalar_same_result m p n : points8 p -> len8 n -> run (t_mult_scalar m (tp p) n) = (let* q := mult_scalar m p n in Ok (tp q)).
Proof. intros P N. apply (doesp_mult_scalar m p n P N). Qed.
Lemma rbind_rbind {X Y V} (r : res X) (k : X -> res Y) (h : Y -> res V) : rbind (rbind r k) h = rbind r (fun x => rbind (k x) h).
Proof. destruct r; reflexivity. Qed.
Lemma does_normalize m p : points8 p -> does (t_normalize m (tp p)) (let* q := normalize m p in Ok (nx q, ny q)) (fun q => len8 (fst q) /\ len8 (snd q)).
Proof.
  intros (A & B & C). unfold t_normalize, normalize. cbn [tp tx ty tz].
  repeat (rewrite ?rbind_rbind; eapply does_then; [first [field; fail|apply does_inverse; assumption]|intros ? _ ?]).
  cbn [rbind nx ny]. apply does_ret. split; assumption.
Qed.
Lemma b2z_to_w8 x : b2z (to_w8 x) = Z.land x (2 ^ 8 - 1).
Proof.
  unfold to_w8. rewrite b2z_z2b. change (2 ^ 8 - 1) with (Z.ones 8). rewrite Z.land_ones by lia. change (2 ^ 8) with 256. apply Z.mod_mod. lia.
Qed.
Lemma map_upd {A B} (f : A -> B) i x l : map f (upd i x l) = upd i (f x) (map f l).
Proof. revert i. induction l as [|y l IH]; intros [|i]; cbn [upd map]; try reflexivity. rewrite IH. reflexivity. Qed.
Lemma does_to_bytes a : len8 a -> does (t_to_bytes a) (Ok (map b2z (to_bytes a))) (fun b => length b = 32%nat).
Proof.
  intros A. unfold t_to_bytes, to_bytes. eapply does_let; [apply does_consts|intros _].
  set (step := fun (b : bytes) (ij : nat * nat) => let '(i, j) := ij in upd (i * 4 + j) (to_w8 (wshr (at_ a (7 - i)) (Z.of_nat ((3 - j) * 8)))) b).
  set (prg := fun (b : list Z) (ij : nat * nat) => let '(i, j) := ij in _).
  assert (G : forall l (b : bytes), length b = 32%nat -> incl l (list_prod (seq 0 8) (seq 0 4)) ->
    does (foldp prg l (map b2z b)) (Ok (map b2z (fold_left step l b))) (fun b => length b = 32%nat)).
  { induction l as [|[i j] l IH]; intros b L I.
    - apply does_ret. rewrite map_length. exact L.
    - assert (H : In (i, j) (list_prod (seq 0 8) (seq 0 4))) by (apply I; left; reflexivity).
      apply in_prod_iff in H as [H1 H2]. apply in_seq in H1, H2.
      cbn [foldp fold_left]. eapply does_let with (v := map b2z (step b (i, j))) (P := yes).
      + split; [|intros; exact Logic.I]. unfold prg, step. unfold len8 in A.
        rewrite run_bind. rewrite (proj1 (does_load a (7 - i) ltac:(lia))). cbn [rbind].
        rewrite run_bind. cbn [un run rbind]. rewrite run_bind. cbn [un run rbind store].
        rewrite map_length. destruct (Nat.ltb_spec (i * 4 + j) (length b)); [|lia].
        rewrite map_upd, b2z_to_w8. reflexivity.
      + intros _. apply IH; [unfold step; rewrite upd_len; exact L|]. intros x Hx. apply I. right. exact Hx. }
  apply (G (list_prod (seq 0 8) (seq 0 4)) (zeros 32)); [reflexivity|apply incl_refl].
Qed.
