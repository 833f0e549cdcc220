(** Proofs about [M_Leak.v]: the programs compute what the first model computes, and their traces. *)
From Verif Require Import M_Leak P_Util.
From Coq Require Import ZifyBool ZifyNat ZifyN.
Local Open Scope Z_scope.

(** ** Sequencing *)
Lemma run_bind {A B} (p : prog Z A) (f : A -> prog Z B) : run (pbind p f) = rbind (run p) (fun a => run (f a)).
Proof.
  induction p; cbn [pbind run rbind]; auto.
  - destruct (nth_error a i); [apply H|reflexivity].
  - destruct (Nat.ltb i (length a)); [apply H|reflexivity].
Qed.
(** a program that panics ends its trace with [EPanic] *)
Lemma trace_bind {A B} (p : prog Z A) (f : A -> prog Z B) :
  trace (pbind p f) = trace p ++ match run p with Ok a => trace (f a) | _ => [] end.
Proof.
  induction p; cbn [pbind run trace app]; auto; try (rewrite H; reflexivity).
  - destruct (nth_error a i); [rewrite H; reflexivity|reflexivity].
  - destruct (Nat.ltb i (length a)); [rewrite H; reflexivity|reflexivity].
  - rewrite IHp. reflexivity.
Qed.

(** ** Results: [p] computes [r], and its value satisfies [P] *)
Definition does {A} (p : prog Z A) (r : res A) (P : A -> Prop) : Prop := run p = r /\ forall a, r = Ok a -> P a.
Lemma does_ret {A} (a : A) (P : A -> Prop) : P a -> does (Ret a) (Ok a) P.
Proof. intros H. split; [reflexivity|]. intros b E. injection E as <-. exact H. Qed.
Lemma does_bind {A B A'} (p : prog Z A) (k : A -> prog Z B) (r : res A') (k' : A' -> res B) (g : A' -> A) P Q :
  run p = (let* a := r in Ok (g a)) -> (forall a, r = Ok a -> P (g a)) ->
  (forall a, r = Ok a -> P (g a) -> does (k (g a)) (k' a) Q) -> does (pbind p k) (rbind r k') Q.
Proof.
  intros E HP H. unfold does. rewrite run_bind, E. destruct r as [a|e| |]; cbn [rbind].
  - exact (H a eq_refl (HP a eq_refl)).
  - split; [reflexivity|discriminate].
  - split; [reflexivity|discriminate].
  - split; [reflexivity|discriminate].
Qed.
Lemma does_then {A B} (p : prog Z A) (k : A -> prog Z B) r k' P Q :
  does p r P -> (forall a, r = Ok a -> P a -> does (k a) (k' a) Q) -> does (pbind p k) (rbind r k') Q.
Proof.
  intros [E HP] H. apply (does_bind p k r k' (fun a => a) P Q).
  - rewrite E. destruct r; reflexivity.
  - exact HP.
  - exact H.
Qed.
Lemma does_let {A B} (p : prog Z A) (k : A -> prog Z B) v r P Q :
  does p (Ok v) P -> (P v -> does (k v) r Q) -> does (pbind p k) r Q.
Proof. intros [E HP] H. unfold does. rewrite run_bind, E. cbn [rbind]. exact (H (HP v eq_refl)). Qed.
Lemma does_weaken {A} (p : prog Z A) r (P Q : A -> Prop) : does p r P -> (forall a, P a -> Q a) -> does p r Q.
Proof. intros [E HP] H. split; [exact E|]. intros a Ea. apply H, HP, Ea. Qed.
Definition yes {A} (_ : A) : Prop := True.
Lemma does_const z : does (const z) (Ok z) yes.
Proof. apply does_ret. exact I. Qed.
Lemma does_un o x : does (un o x) (Ok (op1_val o x)) yes.
Proof. apply (does_ret (op1_val o x)). exact I. Qed.
Lemma does_bin o x y : does (bin o x y) (Ok (op2_val o x y)) yes.
Proof. apply (does_ret (op2_val o x y)). exact I. Qed.
Lemma does_load a i : (i < length a)%nat -> does (load a i) (Ok (at_ a i)) yes.
Proof. intros L. split; [|intros; exact I]. cbn [load run]. rewrite (nth_error_nth' a 0 L). reflexivity. Qed.
Lemma upd_len {A} i (x : A) l : length (upd i x l) = length l.
Proof. revert i. induction l as [|y l IH]; intros [|i]; cbn [upd length]; auto. Qed.
Lemma does_store n i x a : length a = n -> (i < n)%nat -> does (store i x a) (Ok (upd i x a)) (fun v => length v = n).
Proof.
  intros L I. split.
  - cbn [store run]. destruct (Nat.ltb_spec i (length a)); [reflexivity|lia].
  - intros v E. injection E as <-. rewrite upd_len. exact L.
Qed.
Lemma does_consts l : does (consts l) (Ok l) (fun v => v = l).
Proof.
  induction l as [|z l IH]; [apply does_ret; reflexivity|]. cbn [consts].
  eapply does_let; [apply does_const|]. intros _. eapply does_let; [exact IH|]. intros _. apply does_ret. reflexivity.
Qed.
Lemma does_fold {S I} (f : S -> I -> prog Z S) (g : S -> I -> S) (P : S -> Prop) (l : list I) s :
  (forall s i, In i l -> P s -> does (f s i) (Ok (g s i)) P) -> P s -> does (foldp f l s) (Ok (fold_left g l s)) P.
Proof.
  revert s. induction l as [|i l IH]; intros s H Hs; [apply does_ret; exact Hs|]. cbn [foldp fold_left].
  eapply does_let; [apply H; [left; reflexivity|exact Hs]|]. intros H'. apply IH; [|exact H'].
  intros s' i' Hi. apply H. right. exact Hi.
Qed.

(** ** Traces: [p] and [q] do the same operations, whatever the words are *)
Inductive same {A B} (R : A -> B -> Prop) : prog Z A -> prog Z B -> Prop :=
| Same_ret a b : R a b -> same R (Ret a) (Ret b)
| Same_fail : same R Fail Fail
| Same_const z k k' : same R (k z) (k' z) -> same R (Const z k) (Const z k')
| Same_un o x y k k' : same R (k (op1_val o x)) (k' (op1_val o y)) -> same R (Un o x k) (Un o y k')
| Same_bin o x x' y y' k k' : same R (k (op2_val o x x')) (k' (op2_val o y y')) -> same R (Bin o x x' k) (Bin o y y' k')
| Same_load a b i x y k k' : nth_error a i = Some x -> nth_error b i = Some y -> same R (k x) (k' y) -> same R (Load a i k) (Load b i k')
| Same_load_out a b i k k' : nth_error a i = None -> nth_error b i = None -> same R (Load a i k) (Load b i k')
| Same_store a b i x y k k' : length a = length b -> (i < length a)%nat -> same R (k (upd i x a)) (k' (upd i y b)) ->
    same R (Store a i x k) (Store b i y k')
| Same_copy i j k k' : same R k k' -> same R (Copy i j k) (Copy i j k')
| Same_pack (e : bool) (l l' : list Z) k k' : length l = length l' -> same R (k (pack (if e then rev l else l))) (k' (pack (if e then rev l' else l'))) ->
    same R (Pack e l k) (Pack e l' k')
| Same_unpack (e : bool) n x y k k' :
    same R (k (let l := map b2z (le n x) in if e then rev l else l)) (k' (let l := map b2z (le n y) in if e then rev l else l)) ->
    same R (Unpack e n x k) (Unpack e n y k')
| Same_jump z x y k k' : (x =? z) = (y =? z) -> same R (k (x =? z)) (k' (y =? z)) -> same R (Jump z x k) (Jump z y k')
| Same_over o x x' y y' k k' : op2_over o x x' = op2_over o y y' -> same R (k (op2_over o x x')) (k' (op2_over o y y')) ->
    same R (Over o x x' k) (Over o y y' k').

Lemma same_trace {A B} (R : A -> B -> Prop) p q : same R p q -> trace p = trace q.
Proof.
  induction 1; cbn [trace]; try congruence.
  - rewrite H, H0, IHsame. reflexivity.
  - rewrite H, H0. reflexivity.
  - destruct (Nat.ltb_spec i (length a)), (Nat.ltb_spec i (length b)); try lia. rewrite IHsame. reflexivity.
  - f_equal. exact IHsame.
Qed.
Lemma same_bind {A B A' B'} (R : A -> A' -> Prop) (Q : B -> B' -> Prop) p q k k' :
  same R p q -> (forall a b, R a b -> same Q (k a) (k' b)) -> same Q (pbind p k) (pbind q k').
Proof. intros H K. induction H; cbn [pbind]; try (econstructor; eassumption). apply K. assumption. Qed.
Lemma same_weaken {A B} (R Q : A -> B -> Prop) p q : same R p q -> (forall a b, R a b -> Q a b) -> same Q p q.
Proof. intros H K. induction H; try (econstructor; eauto; fail). Qed.
Definition any {A B} (_ : A) (_ : B) : Prop := True.
(** both arrays have [n] words *)
Definition both (n : nat) (a b : list Z) : Prop := length a = n /\ length b = n.
Lemma same_const z : same any (const z) (const z).
Proof. repeat constructor. Qed.
Lemma same_un o x y : same any (un o x) (un o y).
Proof. repeat constructor. Qed.
Lemma same_bin o x x' y y' : same any (bin o x x') (bin o y y').
Proof. repeat constructor. Qed.
Lemma same_load n a b i : both n a b -> (i < n)%nat -> same any (load a i) (load b i).
Proof.
  intros [A B] L. destruct (nth_error a i) eqn:E; [|apply nth_error_None in E; lia].
  destruct (nth_error b i) eqn:F; [|apply nth_error_None in F; lia]. eapply Same_load; eauto. constructor. exact I.
Qed.
Lemma same_store n i x y a b : both n a b -> (i < n)%nat -> same (both n) (store i x a) (store i y b).
Proof. intros [A B] L. apply Same_store; [congruence|lia|]. constructor. unfold both. rewrite !upd_len. auto. Qed.
Lemma same_consts l : same (both (length l)) (consts l) (consts l).
Proof.
  induction l as [|z l IH]; cbn [consts]; [constructor; split; reflexivity|].
  eapply same_bind; [apply same_const|]. intros a b _. eapply same_bind; [exact IH|]. intros u v [U V]. constructor. split; cbn [length]; auto.
Qed.
Lemma same_fold {S S' I} (R : S -> S' -> Prop) f g (l : list I) s s' :
  (forall s s' i, In i l -> R s s' -> same R (f s i) (g s' i)) -> R s s' -> same R (foldp f l s) (foldp g l s').
Proof.
  revert s s'. induction l as [|i l IH]; intros s s' H Hs; [constructor; exact Hs|]. cbn [foldp].
  eapply same_bind; [apply H; [left; reflexivity|exact Hs]|]. intros a b Hab. apply IH; [|exact Hab].
  intros u u' j Hj. apply H. right. exact Hj.
Qed.
