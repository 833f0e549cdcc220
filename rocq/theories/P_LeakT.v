(** Proofs about the traces of the programs of [M_Leak.v]. *)
From Verif Require Import M_Leak P_Leak P_LeakP P_Util.
From Coq Require Import ZifyBool ZifyNat ZifyN.
Local Open Scope Z_scope.

(** one instruction on both sides *)
Ltac two :=
  lazymatch goal with
  | |- same _ (pbind (const _) _) _ => eapply same_bind; [apply same_const|intros ? ? _]
  | |- same _ (pbind (un _ _) _) _ => eapply same_bind; [apply same_un|intros ? ? _]
  | |- same _ (pbind (bin _ _ _) _) _ => eapply same_bind; [apply same_bin|intros ? ? _]
  | |- same _ (pbind (load _ _) _) _ => eapply same_bind; [eapply same_load; [eassumption|lia]|intros ? ? _]
  | |- same _ (pbind (store _ _ _) _) _ => eapply same_bind; [eapply same_store; [eassumption|lia]|intros ? ? ?]
  | |- same _ (pbind (consts ?l) _) _ => eapply same_bind; [apply (same_consts l)|cbn [length repeat ZERO ONE P256]; intros ? ? ?]
  end.

(** ** [crypto_compare] *)
Lemma compare_traces m a b a' b' : length a = length a' -> length b = length b' -> same any (t_crypto_compare m a b) (t_crypto_compare m a' b').
Proof.
  intros A B. unfold t_crypto_compare. rewrite <- A, <- B. eapply same_bind with (R := any).
  { destruct m; [destruct (Nat.eqb _ _)|]; repeat constructor. }
  intros _ _ _. two. destruct (Nat.leb_spec (length a) (length b)) as [L|L].
  - eapply same_bind with (R := any).
    { apply same_fold; [|exact I]. intros s s' i Hi _. apply in_seq_lt in Hi.
      eapply same_bind; [apply (same_load (length a)); [split; congruence|lia]|intros ? ? _].
      eapply same_bind; [apply (same_load (length b)); [split; congruence|lia]|intros ? ? _]. two. apply same_bin. }
    intros ? ? _. repeat two. apply same_un.
  - (* a panic at the first index past the end of [b] *)
    eapply same_bind with (R := any).
    { assert (E : length a = (length b + (length a - length b))%nat) by lia. remember (length a - length b)%nat as d eqn:D.
      destruct d as [|d]; [lia|]. rewrite E, seq_app. clear D.
      assert (G : forall l s s', (forall i, In i l -> (i < length b)%nat) ->
        same any (foldp (fun diff i => let! x := load a i in let! y := load b i in let! e := bin Xor x y in bin Or diff e) (l ++ seq (0 + length b) (S d)) s)
                 (foldp (fun diff i => let! x := load a' i in let! y := load b' i in let! e := bin Xor x y in bin Or diff e) (l ++ seq (0 + length b) (S d)) s')).
      { induction l as [|i l IH]; intros s s' H.
        - cbn [app Nat.add seq foldp]. eapply same_bind with (R := fun _ _ => False); [|contradiction].
          eapply same_bind; [apply (same_load (length a)); [split; congruence|lia]|intros ? ? _].
          eapply same_bind with (R := fun _ _ => False); [|contradiction].
          apply Same_load_out; [apply nth_error_None; lia|apply nth_error_None; lia].
        - cbn [app foldp]. specialize (H i (or_introl eq_refl)) as Hi. eapply same_bind with (R := any); [|intros ? ? _; apply IH; intros j Hj; apply H; right; exact Hj].
          eapply same_bind; [apply (same_load (length a)); [split; congruence|lia]|intros ? ? _].
          eapply same_bind; [apply (same_load (length b)); [split; congruence|lia]|intros ? ? _]. two. apply same_bin. }
      apply G. intros i Hi. apply in_seq_lt in Hi. exact Hi. }
    intros ? ? _. repeat two. apply same_un.
Qed.

(** ** [Int256] *)
Lemma same_compare a b a' b' : both 8 a a' -> both 8 b b' -> same any (t_compare a b) (t_compare a' b').
Proof.
  intros A B. unfold t_compare. two. eapply same_bind with (R := any).
  { apply same_fold; [|exact I]. intros s s' i Hi _. apply in_seq_lt in Hi. repeat two. apply same_bin. }
  intros ? ? _. repeat two. apply same_bin.
Qed.
Lemma same_choose f f' a b a' b' : both 8 a a' -> both 8 b b' -> same (both 8) (t_choose f a b) (t_choose f' a' b').
Proof.
  intros A B. unfold t_choose. two. apply same_fold; [|assumption].
  intros s s' i Hi V. apply in_seq_lt in Hi. repeat two. apply same_store; assumption.
Qed.
Definition bothc (n : nat) (s s' : list Z * Z) : Prop := both n (fst s) (fst s').
Lemma same_add_no_reduce a b a' b' : both 8 a a' -> both 8 b b' -> same (bothc 8) (t_add_no_reduce a b) (t_add_no_reduce a' b').
Proof.
  intros A B. unfold t_add_no_reduce. two. two. eapply same_bind with (R := bothc 8).
  { apply same_fold; [|assumption]. intros [v c] [v' c'] i Hi V. unfold bothc in V. cbn [fst] in V. apply in_seq_lt in Hi. repeat two. constructor. assumption. }
  intros [v c] [v' c'] V. two. constructor. exact V.
Qed.
Lemma same_sub_no_reduce a b a' b' : both 8 a a' -> both 8 b b' -> same (bothc 8) (t_sub_no_reduce a b) (t_sub_no_reduce a' b').
Proof.
  intros A B. unfold t_sub_no_reduce. two. two. eapply same_bind with (R := bothc 8).
  { apply same_fold; [|assumption]. intros [v c] [v' c'] i Hi V. unfold bothc in V. cbn [fst] in V. apply in_seq_lt in Hi. repeat two. constructor. assumption. }
  intros [v c] [v' c'] V. two. constructor. exact V.
Qed.
Lemma same_reduce_once a c a' c' : both 8 a a' -> same (both 8) (t_reduce_once Release a c) (t_reduce_once Release a' c').
Proof.
  intros A. unfold t_reduce_once. two. eapply same_bind; [apply same_sub_no_reduce; assumption|]. intros [v k] [v' k'] V. cbn [t_not_0_1 pbind].
  two. apply same_choose; assumption.
Qed.
Lemma same_reduce_once_zero a a' : both 8 a a' -> same (both 8) (t_reduce_once_zero Release a) (t_reduce_once_zero Release a').
Proof. intros A. unfold t_reduce_once_zero. two. apply same_reduce_once. exact A. Qed.
Lemma same_add a b a' b' : both 8 a a' -> both 8 b b' -> same (both 8) (t_add Release a b) (t_add Release a' b').
Proof. intros A B. unfold t_add. eapply same_bind; [apply same_add_no_reduce; eassumption|]. intros [v c] [v' c'] V. apply same_reduce_once. exact V. Qed.
Lemma same_double a a' : both 8 a a' -> same (both 8) (t_double Release a) (t_double Release a').
Proof. intros A. apply same_add; exact A. Qed.
Lemma same_sub a b a' b' : both 8 a a' -> both 8 b b' -> same (both 8) (t_sub Release a b) (t_sub Release a' b').
Proof.
  intros A B. unfold t_sub. eapply same_bind; [apply same_sub_no_reduce; eassumption|]. intros [v c] [v' c'] V. two.
  eapply same_bind; [apply same_add_no_reduce; eassumption|]. intros [w d] [w' d'] X. cbn [t_not_0_1 pbind]. apply same_choose; assumption.
Qed.
Lemma same_mul_step a b a' b' w w' ij : both 8 a a' -> both 8 b b' -> both 16 w w' -> In ij ijs ->
  same (both 16) (t_mul_step a b w ij) (t_mul_step a' b' w' ij).
Proof. intros A B V H. destruct ij as [i j]. apply in_ijs in H as [I J]. cbn [t_mul_step]. repeat two. apply same_store; [assumption|lia]. Qed.
Lemma same_carry_step w w' s s' i : both 16 w w' -> bothc 16 s s' -> (i < 16)%nat -> same (bothc 16) (t_carry_step w s i) (t_carry_step w' s' i).
Proof. intros V S H. destruct s as [v c], s' as [v' c']. unfold bothc in S. cbn [fst] in S. cbn [t_carry_step]. repeat two. constructor. assumption. Qed.
Lemma same_blit i j v v' k l b b' : both 16 v v' -> both 8 b b' -> (i <= j <= 8)%nat -> (l <= 16)%nat -> (j - i = l - k)%nat ->
  same (both 8) (t_blit i j v k l b) (t_blit i j v' k l b').
Proof.
  intros [V V'] [B B'] I L E. unfold t_blit. do 3 constructor. split; rewrite !app_length, !firstn_length, !skipn_length; lia.
Qed.
Lemma same_move i v v' k b b' : both 16 v v' -> both 8 b b' -> (i < 8)%nat -> (k < 16)%nat -> same (both 8) (t_move i v k b) (t_move i v' k b').
Proof. intros V B I K. unfold t_move. two. apply same_store; assumption. Qed.
Ltac piece2 V :=
  lazymatch goal with
  | |- same _ (pbind (consts _) _) _ => two
  | |- same _ (pbind (t_blit _ _ _ _ _ _) _) _ => eapply same_bind; [apply same_blit; [exact V|eassumption|lia|lia|lia]|intros ? ? ?]
  | |- same _ (pbind (t_move _ _ _ _) _) _ => eapply same_bind; [apply same_move; [exact V|eassumption|lia|lia]|intros ? ? ?]
  | |- same _ (pbind (t_reduce_once_zero _ _) _) _ => eapply same_bind; [apply same_reduce_once_zero; eassumption|intros ? ? ?]
  | |- same _ (pbind (t_double _ _) _) _ => eapply same_bind; [apply same_double; eassumption|intros ? ? ?]
  | |- same _ (pbind (t_add _ _ _) _) _ => eapply same_bind; [apply same_add; eassumption|intros ? ? ?]
  end.
Lemma same_nist_reduce v v' : both 16 v v' -> same (both 8) (t_nist_reduce Release v) (t_nist_reduce Release v').
Proof.
  intros V. unfold t_nist_reduce. repeat piece2 V. eapply same_bind with (R := both 8).
  { apply same_fold; [|assumption]. intros s s' i Hi S. apply in_seq_lt in Hi.
    eapply same_bind; [apply same_move; [exact V|exact S|lia|lia]|intros ? ? ?]. apply same_move; [exact V|assumption|lia|lia]. }
  intros ? ? ?. repeat piece2 V. apply same_sub; assumption.
Qed.
Lemma same_mult a b a' b' : both 8 a a' -> both 8 b b' -> same (both 8) (t_mult Release a b) (t_mult Release a' b').
Proof.
  intros A B. unfold t_mult. two. eapply same_bind with (R := both 16).
  { apply same_fold; [|assumption]. intros s s' ij Hin S. apply same_mul_step; assumption. }
  intros w w' V. two. two. eapply same_bind with (R := bothc 16).
  { apply same_fold; [|assumption]. intros s s' i Hin S. apply in_seq_lt in Hin. apply same_carry_step; assumption. }
  intros [v c] [v' c'] S. cbn [pbind]. apply same_nist_reduce. exact S.
Qed.
Lemma same_square a a' : both 8 a a' -> same (both 8) (t_square Release a) (t_square Release a').
Proof. intros A. apply same_mult; exact A. Qed.
Lemma same_square_n a a' n : both 8 a a' -> same (both 8) (t_square_n Release a n) (t_square_n Release a' n).
Proof. intros A. apply same_fold; [|exact A]. intros s s' i _ S. apply same_square. exact S. Qed.
Lemma same_z_n a a' n : both 8 a a' -> same (both 8) (t_z_n Release a n) (t_z_n Release a' n).
Proof. intros A. unfold t_z_n. eapply same_bind; [apply same_square_n; exact A|]. intros y y' Y. apply same_mult; assumption. Qed.
Lemma same_z_1 z z' a a' : both 8 z z' -> both 8 a a' -> same (both 8) (t_z_1 Release z a) (t_z_1 Release z' a').
Proof. intros Z A. unfold t_z_1. eapply same_bind; [apply same_square; exact Z|]. intros y y' Y. apply same_mult; assumption. Qed.
Ltac field2 :=
  lazymatch goal with
  | |- same _ (pbind (t_square _ _) _) _ => eapply same_bind; [apply same_square; eassumption|intros ? ? ?]
  | |- same _ (pbind (t_mult _ _ _) _) _ => eapply same_bind; [apply same_mult; eassumption|intros ? ? ?]
  | |- same _ (pbind (t_sub _ _ _) _) _ => eapply same_bind; [apply same_sub; eassumption|intros ? ? ?]
  | |- same _ (pbind (t_add _ _ _) _) _ => eapply same_bind; [apply same_add; eassumption|intros ? ? ?]
  | |- same _ (pbind (t_z_n _ _ _) _) _ => eapply same_bind; [apply same_z_n; eassumption|intros ? ? ?]
  | |- same _ (pbind (t_z_1 _ _ _) _) _ => eapply same_bind; [apply same_z_1; eassumption|intros ? ? ?]
  | |- same _ (pbind (t_square_n _ _ _) _) _ => eapply same_bind; [apply same_square_n; eassumption|intros ? ? ?]
  | |- same _ (pbind (t_compare _ _) _) _ => eapply same_bind; [apply same_compare; eassumption|intros ? ? _]
  | |- _ => two
  end.
Lemma same_inverse a a' : both 8 a a' -> same (both 8) (t_inverse Release a) (t_inverse Release a').
Proof. intros A. unfold t_inverse. repeat field2. apply same_mult; assumption. Qed.
Lemma same_half_step a a' v v' i : both 8 a a' -> both 8 v v' -> (i < 7)%nat -> same (both 8) (t_half_step a v i) (t_half_step a' v' i).
Proof. intros A V I. unfold t_half_step. repeat two. apply same_store; [assumption|lia]. Qed.
Lemma same_divide_by_2 a a' : both 8 a a' -> same (both 8) (t_divide_by_2 a) (t_divide_by_2 a').
Proof.
  intros A. unfold t_divide_by_2. repeat two. eapply same_bind with (R := both 8).
  { apply same_fold; [|assumption]. intros s s' i Hin S. apply in_seq_lt in Hin. apply same_half_step; assumption. }
  intros ? ? ?. repeat two. eapply same_bind; [apply same_add_no_reduce; eassumption|]. intros [v c] [v' c'] S. unfold bothc in S. cbn [fst] in S.
  eapply same_bind with (R := both 8).
  { apply same_fold; [|assumption]. intros s s' i Hin Q. apply in_seq_lt in Hin. apply same_half_step; assumption. }
  intros ? ? ?. repeat two. apply same_choose; assumption.
Qed.
Lemma same_to_bytes a a' : both 8 a a' -> same (both 32) (t_to_bytes a) (t_to_bytes a').
Proof.
  intros A. unfold t_to_bytes. two. apply same_fold; [|assumption]. intros s s' [i j] Hin S.
  apply in_prod_iff in Hin as [H1 H2]. apply in_seq in H1, H2. repeat two. apply same_store; [assumption|lia].
Qed.

(** ** Points *)
Definition both_p (p q : tpoint Z) : Prop := both 8 (tx p) (tx q) /\ both 8 (ty p) (ty q) /\ both 8 (tz p) (tz q).
Lemma same_INFTY : same both_p t_INFTY t_INFTY.
Proof. unfold t_INFTY. repeat two. constructor. repeat split; (apply H || apply H0 || apply H1). Qed.
Lemma same_pchoose f f' p q p' q' : both_p p p' -> both_p q q' -> same both_p (t_pchoose f p q) (t_pchoose f' p' q').
Proof.
  intros (A & B & C) (D & E & F). unfold t_pchoose. do 3 (eapply same_bind; [apply same_choose; eassumption|intros ? ? ?]).
  constructor. unfold both_p. cbn [tx ty tz]. auto.
Qed.
Lemma same_normalize p p' : both_p p p' -> same (fun q q' => both 8 (fst q) (fst q') /\ both 8 (snd q) (snd q')) (t_normalize Release p) (t_normalize Release p').
Proof.
  intros (A & B & C). unfold t_normalize. repeat field2. eapply same_bind; [apply same_inverse; eassumption|intros ? ? ?]. repeat field2.
  eapply same_bind; [apply same_inverse; eassumption|intros ? ? ?]. repeat field2. constructor. cbn [fst snd]. auto.
Qed.
Lemma same_pdouble p p' : both_p p p' -> same both_p (t_pdouble Release p) (t_pdouble Release p').
Proof.
  intros (A & B & C). unfold t_pdouble. repeat field2. eapply same_bind; [exact same_INFTY|intros ? ? ?].
  apply same_pchoose; [assumption|]. unfold both_p. cbn [tx ty tz]. auto.
Qed.
Lemma same_padd p q p' q' : both_p p p' -> both_p q q' -> same both_p (t_padd Release p q) (t_padd Release p' q').
Proof.
  intros P Q. pose proof P as (A & B & C). pose proof Q as (D & E & F). unfold t_padd. repeat field2.
  eapply same_bind; [apply same_divide_by_2; eassumption|intros ? ? ?]. repeat field2.
  eapply same_bind; [apply same_pdouble; eassumption|intros ? ? ?]. repeat two.
  eapply same_bind; [apply same_pchoose; [eassumption|unfold both_p; cbn [tx ty tz]; eauto]|intros ? ? ?]. repeat two.
  eapply same_bind; [exact same_INFTY|intros ? ? ?].
  eapply same_bind; [apply same_pchoose; eassumption|intros ? ? ?].
  eapply same_bind; [apply same_pchoose; eassumption|intros ? ? ?]. apply same_pchoose; assumption.
Qed.
Lemma same_mult_scalar p n p' n' : both_p p p' -> both 8 n n' -> same both_p (t_mult_scalar Release p n) (t_mult_scalar Release p' n').
Proof.
  intros P N. unfold t_mult_scalar. eapply same_bind; [exact same_INFTY|intros r r' R]. apply same_fold; [|exact R].
  intros s s' [i j] Hin S. apply in_scalar_ijs in Hin. unfold t_scalar_step. repeat two.
  eapply same_bind; [apply same_pdouble; exact S|intros ? ? ?]. eapply same_bind; [apply same_padd; eassumption|intros ? ? ?].
  apply same_pchoose; assumption.
Qed.
