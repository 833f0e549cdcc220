(** Proofs about the programs of [M_Leak2.v]: they compute what the first model computes. *)
From Verif Require Import M_Leak2 P_Leak P_LeakP P_Util.
From Coq Require Import ZifyBool ZifyNat ZifyN.
Local Open Scope Z_scope.

(** ** Results seen through a representation [g] *)
Definition doesg {A A'} (g : A' -> A) (p : prog Z A) (r : res A') (P : A' -> Prop) : Prop :=
  run p = (let* a := r in Ok (g a)) /\ forall a, r = Ok a -> P a.
Lemma g_ret {A A'} (g : A' -> A) a (P : A' -> Prop) : P a -> doesg g (Ret (g a)) (Ok a) P.
Proof. intros H. split; [reflexivity|]. intros b E. injection E as <-. exact H. Qed.
Lemma g_bind {A A' B B'} (h : A' -> A) (g : B' -> B) p k r k' P Q :
  doesg h p r P -> (forall a, r = Ok a -> P a -> doesg g (k (h a)) (k' a) Q) -> doesg g (pbind p k) (rbind r k') Q.
Proof.
  intros [E HP] H. unfold doesg. rewrite run_bind, E. destruct r as [a|e| |]; cbn [rbind].
  - exact (H a eq_refl (HP a eq_refl)).
  - split; [reflexivity|discriminate].
  - split; [reflexivity|discriminate].
  - split; [reflexivity|discriminate].
Qed.
Lemma g_let {A A' B B'} (h : A' -> A) (g : B' -> B) p k v r P Q :
  doesg h p (Ok v) P -> (P v -> doesg g (k (h v)) r Q) -> doesg g (pbind p k) r Q.
Proof. intros [E HP] H. unfold doesg. rewrite run_bind, E. cbn [rbind]. exact (H (HP v eq_refl)). Qed.
Lemma g_then {A B B'} (g : B' -> B) (p : prog Z A) k r k' P Q :
  does p r P -> (forall a, r = Ok a -> P a -> doesg g (k a) (k' a) Q) -> doesg g (pbind p k) (rbind r k') Q.
Proof.
  intros [E HP] H. apply (g_bind (fun a => a) g p k r k' P Q); [|exact H]. split; [|exact HP]. rewrite E. destruct r; reflexivity.
Qed.
Lemma g_let1 {A B B'} (g : B' -> B) (p : prog Z A) k v r P Q :
  does p (Ok v) P -> (P v -> doesg g (k v) r Q) -> doesg g (pbind p k) r Q.
Proof. intros [E HP] H. unfold doesg. rewrite run_bind, E. cbn [rbind]. exact (H (HP v eq_refl)). Qed.
Lemma g_weaken {A A'} (g : A' -> A) p r (P Q : A' -> Prop) : doesg g p r P -> (forall a, P a -> Q a) -> doesg g p r Q.
Proof. intros [E HP] H. split; [exact E|]. intros a Ea. apply H, HP, Ea. Qed.
Lemma g_fold {S S' I I'} (g : S' -> S) (i : I' -> I) (f : S -> I -> prog Z S) (f' : S' -> I' -> S') (P : S' -> Prop) l s :
  (forall s x, In x l -> P s -> doesg g (f (g s) (i x)) (Ok (f' s x)) P) -> P s ->
  doesg g (foldp f (map i l) (g s)) (Ok (fold_left f' l s)) P.
Proof.
  revert s. induction l as [|x l IH]; intros s H Hs; [apply g_ret; exact Hs|]. cbn [map foldp fold_left].
  eapply g_let; [apply H; [left; reflexivity|exact Hs]|]. intros H'. apply IH; [|exact H'].
  intros s' x' Hx. apply H. right. exact Hx.
Qed.
Lemma g_map {I I' B B'} (i : I' -> I) (g : B' -> B) (f : I -> prog Z B) (f' : I' -> B') (P : B' -> Prop) l :
  (forall x, In x l -> doesg g (f (i x)) (Ok (f' x)) P) -> doesg (map g) (mapp f (map i l)) (Ok (map f' l)) (Forall P).
Proof.
  induction l as [|x l IH]; intros H; [exact (g_ret (map g) [] (Forall P) (Forall_nil P))|]. cbn [map mapp].
  eapply g_let; [apply H; left; reflexivity|]. intros Hx. eapply g_let; [apply IH; intros y Hy; apply H; right; exact Hy|].
  intros Hl. apply (g_ret (map g) (f' x :: map f' l)). constructor; assumption.
Qed.
Lemma of_does {A} (p : prog Z A) r P : does p r P <-> doesg (fun a => a) p r P.
Proof. unfold does, doesg. split; intros [E H]; (split; [|exact H]); rewrite E; destruct r; reflexivity. Qed.
Lemma of_doesg {A A'} (g : A' -> A) p v (P : A' -> Prop) : doesg g p (Ok v) P -> does p (Ok (g v)) (fun _ => P v).
Proof. intros [E H]. split; [exact E|]. intros a _. exact (H v eq_refl). Qed.

(** ** Machine operations *)
Lemma do_low32 x : does (un (Low 32) x) (Ok (x mod 2 ^ 32)) yes.
Proof. rewrite <- Z.land_ones by lia. exact (does_un (Low 32) x). Qed.
Lemma do_rotl n x : does (un (Rotl n) x) (Ok (rotate_left x n)) yes. Proof. exact (does_un (Rotl n) x). Qed.
Lemma do_rotr n x : does (un (Rotr n) x) (Ok (rotate_right x n)) yes. Proof. exact (does_un (Rotr n) x). Qed.
Lemma do_not x : does (un Not x) (Ok (wnot x)) yes. Proof. exact (does_un Not x). Qed.
Lemma do_checked m o n x y : op2_val o x y = op2_exact o x y mod 2 ^ n ->
  op2_over o x y = negb ((0 <=? op2_exact o x y) && (op2_exact o x y <? 2 ^ n)) -> does (checked m o x y) (ck m n (op2_exact o x y)) yes.
Proof.
  intros V O. split; [|intros; exact I]. unfold ck. destruct m; cbn [checked run]; rewrite ?O;
    destruct ((0 <=? op2_exact o x y) && (op2_exact o x y <? 2 ^ n)) eqn:R; cbn [negb bin run]; rewrite ?V; try reflexivity;
    rewrite Z.mod_small by lia; reflexivity.
Qed.
Lemma do_cadd m n x y : does (checked m (Add n) x y) (ck m n (x + y)) yes. Proof. exact (do_checked m (Add n) n x y eq_refl eq_refl). Qed.
Lemma do_cmul m n x y : does (checked m (Mul n) x y) (ck m n (x * y)) yes. Proof. exact (do_checked m (Mul n) n x y eq_refl eq_refl). Qed.

(** ** Bytes *)
Notation words := (map b2z).
Lemma pack_le l : pack (words l) = le_val l.
Proof. induction l as [|b l IH]; [reflexivity|]. cbn [map pack le_val]. rewrite IH. reflexivity. Qed.
Lemma le_val_rev l : le_val (rev l) = be_val l.
Proof.
  assert (G : forall l x, le_val (l ++ [x]) = le_val l + 256 ^ zlen l * b2z x).
  { clear. induction l as [|b l IH]; intros x; [cbn [app le_val]; change (256 ^ zlen []) with 1; lia|]. cbn [app le_val]. rewrite IH. unfold zlen. cbn [length].
    rewrite Nat2Z.inj_succ, Z.pow_succ_r by lia. lia. }
  induction l as [|b l IH]; [reflexivity|]. cbn [rev]. rewrite G, IH, be_val_cons. unfold zlen. rewrite rev_length. lia.
Qed.
Lemma pack_be l : pack (rev (words l)) = be_val l.
Proof. rewrite <- map_rev, pack_le. apply le_val_rev. Qed.
Lemma le_S n x : le (S n) x = le n x ++ [z2b (x / 256 ^ Z.of_nat n)].
Proof.
  revert x. induction n as [|n IH]; intros x; [cbn; rewrite Z.div_1_r; reflexivity|].
  change (le (S (S n)) x) with (z2b x :: le (S n) (x / 256)). rewrite IH. change (le (S n) x) with (z2b x :: le n (x / 256)). cbn [app]. do 3 f_equal.
  rewrite Z.div_div by lia. rewrite Nat2Z.inj_succ, Z.pow_succ_r by lia. reflexivity.
Qed.
Lemma rev_le n x : rev (le n x) = be n x.
Proof. induction n as [|n IH]; [reflexivity|]. rewrite le_S, rev_app_distr, IH. reflexivity. Qed.
Lemma chunks_words {A B} (f : A -> B) k l : chunks k (map f l) = map (map f) (chunks k l).
Proof.
  unfold chunks. rewrite map_length. generalize (length l) as n. intros n. revert l.
  induction n as [|n IH]; intros [|x l]; cbn [chunks_fuel map]; try reflexivity.
  change (f x :: map f l) with (map f (x :: l)). rewrite firstn_map, skipn_map, IH. reflexivity.
Qed.
Lemma g_read_le bs : does (t_read_u32 false (words bs)) (Ok (read_u32_le bs)) yes.
Proof.
  unfold t_read_u32, read_u32_le. rewrite chunks_words.
  destruct (g_map words (fun z : Z => z) (fun c => Pack false c Ret) le_val yes (chunks 4 bs)) as [E _].
  - intros c _. split; [|intros; exact I]. cbn [run rbind]. rewrite pack_le. reflexivity.
  - split; [|intros; exact I]. rewrite E. cbn [rbind]. rewrite map_id. reflexivity.
Qed.
Lemma g_read_be bs : does (t_read_u32 true (words bs)) (Ok (read_u32_be bs)) yes.
Proof.
  unfold t_read_u32, read_u32_be. rewrite chunks_words.
  destruct (g_map words (fun z : Z => z) (fun c => Pack true c Ret) be_val yes (chunks 4 bs)) as [E _].
  - intros c _. split; [|intros; exact I]. cbn [run rbind]. rewrite pack_be. reflexivity.
  - split; [|intros; exact I]. rewrite E. cbn [rbind]. rewrite map_id. reflexivity.
Qed.
Lemma g_write_le ws : doesg words (t_write_u32 false ws) (Ok (write_u32_le ws)) (fun b => length b = (4 * length ws)%nat).
Proof.
  unfold t_write_u32, write_u32_le.
  destruct (g_map (fun z : Z => z) words (fun w => Unpack false 4 w Ret) (le 4) yes ws) as [E _].
  - intros c _. split; [reflexivity|intros; exact I].
  - rewrite map_id in E. split; [rewrite run_bind, E; cbn [rbind run]; rewrite concat_map; reflexivity|].
    intros b Eb. injection Eb as <-. clear. induction ws as [|w ws IH]; [reflexivity|]. cbn [map concat]. rewrite app_length, IH, ?le_length, ?be_length. cbn [length]. lia.
Qed.
Lemma g_write_be ws : doesg words (t_write_u32 true ws) (Ok (write_u32_be ws)) (fun b => length b = (4 * length ws)%nat).
Proof.
  unfold t_write_u32, write_u32_be.
  destruct (g_map (fun z : Z => z) words (fun w => Unpack true 4 w Ret) (be 4) yes ws) as [E _].
  - intros c _. split; [|intros; exact I]. cbn [run rbind]. rewrite <- map_rev, rev_le. reflexivity.
  - rewrite map_id in E. split; [rewrite run_bind, E; cbn [rbind run]; rewrite concat_map; reflexivity|].
    intros b Eb. injection Eb as <-. clear. induction ws as [|w ws IH]; [reflexivity|]. cbn [map concat]. rewrite app_length, IH, ?le_length, ?be_length. cbn [length]. lia.
Qed.

(** one instruction *)
Ltac ix := first [assumption | lia].
Ltac instr :=
  lazymatch goal with
  | |- does (const _) _ _ => apply does_const
  | |- does (un (Shr _) _) _ _ => apply do_shr
  | |- does (un (Shl _) _) _ _ => apply do_shl
  | |- does (un (Rotl _) _) _ _ => apply do_rotl
  | |- does (un (Rotr _) _) _ _ => apply do_rotr
  | |- does (un Not _) _ _ => apply do_not
  | |- does (un (Low 32) _) _ _ => apply do_low32
  | |- does (bin Xor _ _) _ _ => apply do_xor
  | |- does (bin Or _ _) _ _ => apply do_or
  | |- does (bin And _ _) _ _ => apply do_and
  | |- does (bin (Add _) _ _) _ _ => apply do_add
  | |- does (bin (Sub _) _ _) _ _ => apply do_sub
  | |- does (checked _ (Add _) _ _) _ _ => apply do_cadd
  | |- does (checked _ (Mul _) _ _) _ _ => apply do_cmul
  | |- does (load _ _) _ _ => apply does_load; ix
  end.
Ltac st :=
  lazymatch goal with
  | |- does (pbind (checked _ _ _ _) _) _ _ => eapply does_then; [instr|intros ? _ _]
  | |- does (pbind _ _) _ _ => eapply does_let; [instr|intros _]
  | |- doesg _ (pbind (checked _ _ _ _) _) _ _ => eapply g_then; [instr|intros ? _ _]
  | |- doesg _ (pbind _ _) _ _ => eapply g_let1; [instr|intros _]
  end.
