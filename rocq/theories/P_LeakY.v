(** Proofs about the programs of [M_Leak2.v]: the drawing of the private scalar, and what debug builds give away. *)
From Verif Require Import P_Util M_Ecdhe P_Limbs P_Ecdhe P_Scalar M_Leak2 P_Leak P_LeakP P_LeakT P_LeakX M_Leak.
From Coq Require Import ZifyBool ZifyNat ZifyN.
Local Open Scope Z_scope.

(** ** Drawing the private scalar *)
Lemma keep_parts m x : int256_ok x -> exists v, int256_ok v /\ does (t_reduce_once m x 0) (Ok v) len8 /\ does (t_compare v x) (Ok (icompare v x)) yes /\
  (icompare v x =? 0) = (limbs_val x <? p256).
Proof.
  intros X. destruct (reduce_once_zero_spec m x X) as (v & Ev & Rv & Vv). unfold reduce_once_zero in Ev.
  assert (L : len8 x) by exact (proj1 X). assert (LV : len8 v) by exact (proj1 (proj1 Rv)).
  exists v. split; [apply Rv|]. split; [pose proof (does_reduce_once m x 0 L) as D; rewrite Ev in D; exact D|]. split; [apply does_compare; assumption|].
  rewrite icompare_spec by (exact X || apply Rv). rewrite Vv. pose proof (limbs_val_range x X).
  destruct (Z.ltb_spec (limbs_val x) p256) as [B|B].
  - rewrite Z.mod_small by lia. rewrite Z.eqb_refl. reflexivity.
  - destruct (Z.eqb_spec (limbs_val x mod p256) (limbs_val x)) as [Y|Y]; [|reflexivity].
    pose proof (Z.mod_pos_bound (limbs_val x) p256 ltac:(reflexivity)) as R. rewrite Y in R. exfalso. clear - B R. lia.
Qed.
#[local] Opaque t_reduce_once t_compare.
Lemma does_keep m x : int256_ok x -> run (t_keep m x) = Ok (limbs_val x <? p256).
Proof.
  intros X. destruct (keep_parts m x X) as (v & _ & [R _] & [C _] & E). unfold t_keep. cbn [const pbind run].
  rewrite run_bind, R. cbn [rbind]. rewrite run_bind, C. cbn [rbind jump run]. rewrite E. reflexivity.
Qed.
Lemma keep_trace m x : int256_ok x -> exists v, int256_ok v /\
  trace (t_keep m x) = EConst 0 :: trace (t_reduce_once m x 0) ++ trace (t_compare v x) ++ [EJump (limbs_val x <? p256)].
Proof.
  intros X. destruct (keep_parts m x X) as (v & V & [R _] & [C _] & E). exists v. split; [exact V|]. unfold t_keep. cbn [const pbind trace].
  rewrite trace_bind, R, trace_bind, C. cbn [jump trace]. rewrite E. reflexivity.
Qed.
(** the scalars that a tape holds *)
Fixpoint scalars (f : nat) (g : rng) : list int256 :=
  match f with O => [] | S f => if (32 <=? length g)%nat then P_Ecdhe.words 8 g :: scalars f (skipn 32 g) else [] end.
Lemma run_draws m : forall f g, (length g <= f)%nat -> run (t_draws (t_keep m) (scalars (S f) g)) = fst (get_random_loop m (S f) g).
Proof.
  induction f as [|f IH]; intros g F.
  - destruct (random_short m 0 g ltac:(lia)) as (g' & E). rewrite E. cbn [scalars]. destruct (Nat.leb_spec 32 (length g)); [lia|]. reflexivity.
  - cbn [scalars]. destruct (Nat.leb_spec 32 (length g)) as [L|L]; [|destruct (random_short m (S f) g L) as (g' & E); rewrite E; reflexivity].
    cbn [t_draws]. destruct (words_val 8 g) as [V G]; [lia|]. change (4 * 8)%nat with 32%nat in V.
    assert (X : int256_ok (P_Ecdhe.words 8 g)) by (split; [apply words_length|exact G]).
    rewrite run_bind, (does_keep m _ X). cbn [rbind].
    destruct (random_turn m (S f) g L) as (x & Hx & Vx & E). rewrite E.
    assert (Y : x = P_Ecdhe.words 8 g).
    { revert E. destruct (group_spec g L) as (y & D & _). assert (D' := draw_limbs_spec 8 0 ZERO g ltac:(lia) eq_refl). cbn [firstn app] in D'.
      intros _. destruct Hx as [H1 H2], X as [H3 H4]. apply limbs_val_inj; [congruence|assumption|assumption|]. rewrite Vx, V. reflexivity. }
    rewrite <- Y, Vx. destruct (draw g 0 <? p256); [reflexivity|].
    apply IH. rewrite skipn_length. lia.
Qed.
Lemma random_same_result m g : run (t_draws (t_keep m) (scalars (S (length g)) g)) = fst (get_random_x m g).
Proof. apply run_draws. lia. Qed.

(** both drawn values are kept, or both are thrown away *)
Definition alike (x y : int256) : Prop := (limbs_val x <? p256) = (limbs_val y <? p256).
Lemma keep_traces x y : int256_ok x -> int256_ok y -> alike x y -> trace (t_keep Release x) = trace (t_keep Release y).
Proof.
  intros X Y A. destruct (keep_trace Release x X) as (v & V & E). destruct (keep_trace Release y Y) as (w & W & F). rewrite E, F, A.
  assert (B : both 8 x y) by (split; [apply X|apply Y]). assert (C : both 8 v w) by (split; [apply V|apply W]).
  rewrite (same_trace _ _ _ (same_reduce_once x 0 y 0 B)), (same_trace _ _ _ (same_compare v x w y C B)). reflexivity.
Qed.
Lemma draws_traces : forall d d', Forall int256_ok d -> Forall int256_ok d' -> Forall2 alike d d' ->
  trace (t_draws (t_keep Release) d) = trace (t_draws (t_keep Release) d').
Proof.
  intros d d' H H' F. revert H H'. induction F as [|x y d d' A F IH]; intros H H'; [reflexivity|]. inversion_clear H. inversion_clear H'.
  cbn [t_draws]. rewrite !trace_bind, !does_keep by assumption. rewrite (keep_traces x y) by assumption. rewrite A.
  destruct (limbs_val y <? p256); [reflexivity|]. rewrite IH by assumption. reflexivity.
Qed.

(** ** Debug builds *)
(** a jump on which two traces part *)
Definition part (t t' : list event) : Prop := exists k b, nth_error t k = Some (EJump b) /\ nth_error t' k = Some (EJump (negb b)).
Lemma part_neq t t' : part t t' -> t <> t'.
Proof. intros (k & b & A & B) <-. rewrite A in B. injection B as B. destruct b; discriminate. Qed.
Lemma part_pre c c' t t' : c = c' -> part t t' -> part (c ++ t) (c' ++ t').
Proof. intros <- (k & b & A & B). exists (length c + k)%nat, b. rewrite !nth_error_app2 by lia. replace (length c + k - length c)%nat with k by lia. auto. Qed.
Lemma part_post t t' s s' : part t t' -> part (t ++ s) (t' ++ s').
Proof.
  intros (k & b & A & B). exists k, b. rewrite !nth_error_app1; [auto| |]; apply nth_error_Some; congruence.
Qed.
Lemma part_eq t t' u u' : t = u -> t' = u' -> part u u' -> part t t'.
Proof. intros -> ->. auto. Qed.
Lemma part_bind {A B} (p q : prog Z A) (k k' : A -> prog Z B) : part (trace p) (trace q) -> part (trace (pbind p k)) (trace (pbind q k')).
Proof. intros H. rewrite !trace_bind. apply part_post. exact H. Qed.
Lemma part_then {A B} (p q : prog Z A) a a' (k k' : A -> prog Z B) : run p = Ok a -> run q = Ok a' -> trace p = trace q ->
  part (trace (k a)) (trace (k' a')) -> part (trace (pbind p k)) (trace (pbind q k')).
Proof. intros R R' T H. rewrite !trace_bind, R, R'. apply part_pre; assumption. Qed.
#[local] Transparent t_reduce_once t_compare.
Lemma double_parts : part (trace (t_pdouble Debug (tp INFTY))) (trace (t_pdouble Debug (tp G))).
Proof. exists (N.to_nat 8872), true. split; lazy; reflexivity. Qed.

Lemma G8 : points8 G. Proof. repeat split. Qed.
Lemma first_double : run (t_pdouble Debug (tp INFTY)) = Ok (tp INFTY).
Proof. rewrite (proj1 (doesp_double Debug INFTY infty8)). lazy. reflexivity. Qed.
Lemma first_add : run (t_padd Debug (tp INFTY) (tp G)) = Ok (tp G).
Proof. rewrite (proj1 (doesp_add Debug INFTY G infty8 G8)). lazy. reflexivity. Qed.
(** two private scalars that differ in the topmost bit that is used *)
Definition scalar_low : int256 := ZERO.
Definition scalar_high : int256 := [0; 0; 0; 0; 0; 0; 2 ^ 7; 0].
Lemma scalars_ok : int256_ok scalar_low /\ int256_ok scalar_high.
Proof. split; (split; [reflexivity|repeat constructor; cbn; lia]). Qed.
Lemma ijs_eq : exists l, scalar_ijs = (6, 7)%nat :: (6, 6)%nat :: l.
Proof. eexists. reflexivity. Qed.
#[local] Opaque t_pdouble t_padd t_pchoose.
Lemma run_choose f p q : points8 p -> points8 q -> run (t_pchoose f (tp p) (tp q)) = Ok (tp (pchoose f p q)).
Proof. intros P Q. rewrite (proj1 (doesp_choose f p q P Q)). reflexivity. Qed.
Lemma step_head m p n r i j x : nth_error n i = Some x ->
  trace (t_scalar_step m p n r (i, j)) = [ELoad i; EUn (Shr (Z.of_nat j)); EConst 1; EBin And] ++
    trace (let! ret2 := t_pdouble m r in let! ret3 := t_padd m ret2 p in t_pchoose (op2_val And (op1_val (Shr (Z.of_nat j)) x) 1) ret2 ret3).
Proof. intros H. unfold t_scalar_step. cbn [load un const bin pbind trace app]. rewrite H. reflexivity. Qed.
Lemma step_run m p n r i j x : nth_error n i = Some x ->
  run (t_scalar_step m p n r (i, j)) =
    run (let! ret2 := t_pdouble m r in let! ret3 := t_padd m ret2 p in t_pchoose (op2_val And (op1_val (Shr (Z.of_nat j)) x) 1) ret2 ret3).
Proof. intros H. unfold t_scalar_step. cbn [load un const bin pbind run]. rewrite H. reflexivity. Qed.
Lemma body_trace (d : prog Z (tpoint Z)) (a : tpoint Z -> prog Z (tpoint Z)) (c : tpoint Z -> tpoint Z -> prog Z (tpoint Z)) r2 r3 : run d = Ok r2 -> run (a r2) = Ok r3 ->
  trace (let! ret2 := d in let! ret3 := a ret2 in c ret2 ret3) = trace d ++ trace (a r2) ++ trace (c r2 r3).
Proof. intros D A. rewrite trace_bind, D, trace_bind, A. reflexivity. Qed.
Lemma body_run (d : prog Z (tpoint Z)) (a : tpoint Z -> prog Z (tpoint Z)) (c : tpoint Z -> tpoint Z -> prog Z (tpoint Z)) r2 r3 : run d = Ok r2 -> run (a r2) = Ok r3 ->
  run (let! ret2 := d in let! ret3 := a ret2 in c ret2 ret3) = run (c r2 r3).
Proof. intros D A. rewrite run_bind, D. cbn [rbind]. rewrite run_bind, A. reflexivity. Qed.
Lemma low6 : nth_error scalar_low 6 = Some 0. Proof. reflexivity. Qed.
Lemma high6 : nth_error scalar_high 6 = Some (2 ^ 7). Proof. reflexivity. Qed.
Lemma bit_low : op2_val And (op1_val (Shr (Z.of_nat 7)) 0) 1 = 0. Proof. reflexivity. Qed.
Lemma bit_high : op2_val And (op1_val (Shr (Z.of_nat 7)) (2 ^ 7)) 1 = 1. Proof. reflexivity. Qed.
Lemma choose_low : pchoose 0 INFTY G = INFTY. Proof. reflexivity. Qed.
Lemma choose_high : pchoose 1 INFTY G = G. Proof. reflexivity. Qed.
Lemma step_two m p n r i j x b r2 r3 : nth_error n i = Some x -> op2_val And (op1_val (Shr (Z.of_nat j)) x) 1 = b ->
  run (t_pdouble m r) = Ok r2 -> run (t_padd m r2 p) = Ok r3 ->
  run (t_scalar_step m p n r (i, j)) = run (t_pchoose b r2 r3) /\
  trace (t_scalar_step m p n r (i, j)) = [ELoad i; EUn (Shr (Z.of_nat j)); EConst 1; EBin And] ++
    trace (t_pdouble m r) ++ trace (t_padd m r2 p) ++ trace (t_pchoose b r2 r3).
Proof.
  intros H <- D A. rewrite (step_run _ _ _ _ _ _ _ H), (step_head _ _ _ _ _ _ _ H). split.
  - exact (body_run _ (fun v => t_padd m v p) _ _ _ D A).
  - f_equal. exact (body_trace _ (fun v => t_padd m v p) _ _ _ D A).
Qed.
Lemma choose_same : trace (t_pchoose 0 (tp INFTY) (tp G)) = trace (t_pchoose 1 (tp INFTY) (tp G)).
Proof. apply (same_trace both_p). apply same_pchoose; repeat split. Qed.
Lemma scalar_parts : part (trace (t_mult_scalar Debug (tp G) scalar_low)) (trace (t_mult_scalar Debug (tp G) scalar_high)).
Proof.
  unfold t_mult_scalar. destruct ijs_eq as [l ->].
  eapply part_then with (a := tp INFTY) (a' := tp INFTY); [reflexivity|reflexivity|reflexivity|]. cbn [foldp].
  destruct (step_two Debug (tp G) scalar_low (tp INFTY) 6 7 0 0 _ _ low6 bit_low first_double first_add) as [RL TL].
  destruct (step_two Debug (tp G) scalar_high (tp INFTY) 6 7 (2 ^ 7) 1 _ _ high6 bit_high first_double first_add) as [RH TH].
  eapply part_then with (a := tp INFTY) (a' := tp G).
  - etransitivity; [exact RL|]. etransitivity; [exact (run_choose _ _ _ infty8 G8)|]. rewrite choose_low. reflexivity.
  - etransitivity; [exact RH|]. etransitivity; [exact (run_choose _ _ _ infty8 G8)|]. rewrite choose_high. reflexivity.
  - etransitivity; [exact TL|]. etransitivity; [|symmetry; exact TH]. rewrite choose_same. reflexivity.
  - apply part_bind. eapply part_eq; [exact (step_head Debug (tp G) scalar_low (tp INFTY) 6 6 0 low6)|exact (step_head Debug (tp G) scalar_high (tp G) 6 6 (2 ^ 7) high6)|].
    apply part_pre; [reflexivity|]. apply part_bind. exact double_parts.
Qed.
#[local] Opaque t_mult_scalar.
Lemma exchange_parts qx qy : trace (t_exchange Debug (px G) (py G) qx qy scalar_low) <> trace (t_exchange Debug (px G) (py G) qx qy scalar_high).
Proof.
  apply part_neq. unfold t_exchange. eapply part_then with (a := ONE) (a' := ONE); [apply does_one|apply does_one|reflexivity|].
  apply part_bind. exact scalar_parts.
Qed.
Lemma debug_leaks : exists n n', int256_ok n /\ int256_ok n' /\ forall qx qy,
  trace (t_exchange Debug (px G) (py G) qx qy n) <> trace (t_exchange Debug (px G) (py G) qx qy n').
Proof. exists scalar_low, scalar_high. split; [apply scalars_ok|]. split; [apply scalars_ok|]. exact exchange_parts. Qed.
Lemma compare_result m a b : run (t_crypto_compare m (map b2z a) (map b2z b)) =
  match crypto_compare m a b with Ok true => Ok 1 | Ok false => Ok 0 | Err e => Err e | Panic => Panic | Diverge => Diverge end.
Proof. rewrite compare_same_result. unfold P_LeakP.word. destruct (crypto_compare m a b) as [[]| | |]; reflexivity. Qed.
Lemma compare_trace m a b a' b' : length a = length a' -> length b = length b' -> trace (t_crypto_compare m a b) = trace (t_crypto_compare m a' b').
Proof. intros A B. exact (same_trace _ _ _ (compare_traces m a b a' b' A B)). Qed.
