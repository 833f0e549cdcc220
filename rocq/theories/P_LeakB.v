(** Proofs about the traces of the programs of [M_Leak2.v]. *)
From Verif Require Import P_Util P_Word M_Leak2 P_Leak P_LeakP P_LeakT P_Leak2 P_LeakA M_Leak.
From Coq Require Import ZifyBool ZifyNat ZifyN.
Local Open Scope Z_scope.

(** ** [p] and [q] do the same operations as long as neither overflows *)
Inductive near {A B} (R : A -> B -> Prop) : prog Z A -> prog Z B -> Prop :=
| Near_ret a b : R a b -> near R (Ret a) (Ret b)
| Near_fail : near R Fail Fail
| Near_const z k k' : near R (k z) (k' z) -> near R (Const z k) (Const z k')
| Near_un o x y k k' : near R (k (op1_val o x)) (k' (op1_val o y)) -> near R (Un o x k) (Un o y k')
| Near_bin o x x' y y' k k' : near R (k (op2_val o x x')) (k' (op2_val o y y')) -> near R (Bin o x x' k) (Bin o y y' k')
| Near_load a b i x y k k' : nth_error a i = Some x -> nth_error b i = Some y -> near R (k x) (k' y) -> near R (Load a i k) (Load b i k')
| Near_store a b i x y k k' : length a = length b -> (i < length a)%nat -> near R (k (upd i x a)) (k' (upd i y b)) ->
    near R (Store a i x k) (Store b i y k')
| Near_copy i j k k' : near R k k' -> near R (Copy i j k) (Copy i j k')
| Near_pack (e : bool) (l l' : list Z) k k' : length l = length l' -> near R (k (pack (if e then rev l else l))) (k' (pack (if e then rev l' else l'))) ->
    near R (Pack e l k) (Pack e l' k')
| Near_unpack (e : bool) n x y k k' :
    near R (k (let l := map b2z (le n x) in if e then rev l else l)) (k' (let l := map b2z (le n y) in if e then rev l else l)) ->
    near R (Unpack e n x k) (Unpack e n y k')
| Near_over o x x' y y' k k' : k true = Fail -> k' true = Fail -> near R (k false) (k' false) -> near R (Over o x x' k) (Over o y y' k').

Lemma near_trace {A B} (R : A -> B -> Prop) p q : near R p q -> forall a b, run p = Ok a -> run q = Ok b -> trace p = trace q /\ R a b.
Proof.
  induction 1; cbn [trace run]; intros u v U V; try (discriminate || (destruct (IHnear _ _ U V) as [-> HR]; split; [reflexivity|exact HR])).
  - injection U as <-. injection V as <-. split; [reflexivity|assumption].
  - rewrite H, H0 in *. destruct (IHnear _ _ U V) as [-> HR]; split; [reflexivity|exact HR].
  - destruct (Nat.ltb_spec i (length a)), (Nat.ltb_spec i (length b)); try lia. destruct (IHnear _ _ U V) as [-> HR]; split; [reflexivity|exact HR].
  - destruct (IHnear _ _ U V) as [-> HR]. rewrite H. split; [reflexivity|exact HR].
  - destruct (IHnear _ _ U V) as [E HR]. split; [f_equal; exact E|exact HR].
  - destruct (op2_over o x x'); [rewrite H in U; discriminate|]. destruct (op2_over o y y'); [rewrite H0 in V; discriminate|].
    destruct (IHnear _ _ U V) as [-> HR]; split; [reflexivity|exact HR].
Qed.
Lemma near_bind {A B A' B'} (R : A -> A' -> Prop) (Q : B -> B' -> Prop) p q k k' :
  near R p q -> (forall a b, R a b -> near Q (k a) (k' b)) -> near Q (pbind p k) (pbind q k').
Proof.
  intros H K. induction H; cbn [pbind]; try (econstructor; eassumption).
  - apply K. assumption.
  - apply Near_over; [rewrite H; reflexivity|rewrite H0; reflexivity|exact IHnear].
Qed.
Lemma near_fold {S S' I J} (R : S -> S' -> Prop) (T : I -> J -> Prop) f g : forall l l' s s', Forall2 T l l' ->
  (forall s s' i j, T i j -> R s s' -> near R (f s i) (g s' j)) -> R s s' -> near R (foldp f l s) (foldp g l' s').
Proof.
  intros l l' s s' F H Hs. revert s s' Hs. induction F as [|i j l l' Hij F IH]; intros s s' Hs; [constructor; exact Hs|]. cbn [foldp].
  eapply near_bind; [apply H; eassumption|]. intros a b Hab. apply IH. exact Hab.
Qed.
Lemma near_map {I J B C} (T : I -> J -> Prop) (R : B -> C -> Prop) f g : forall l l', Forall2 T l l' ->
  (forall i j, T i j -> near R (f i) (g j)) -> near (fun u v => Forall2 R u v /\ length u = length l) (mapp f l) (mapp g l').
Proof.
  intros l l' F H. induction F as [|i j l l' Hij F IH]; cbn [mapp]; [constructor; split; constructor|].
  eapply near_bind; [apply H; exact Hij|]. intros a b Hab. eapply near_bind; [exact IH|]. intros u v [Huv Hl]. constructor.
  split; [constructor; assumption|]. cbn [length]. congruence.
Qed.
Lemma near_weaken {A B} (R Q : A -> B -> Prop) p q : near R p q -> (forall a b, R a b -> Q a b) -> near Q p q.
Proof. intros H K. induction H; try (econstructor; eauto; fail). Qed.
Lemma near_const z : near any (const z) (const z). Proof. repeat constructor. Qed.
Lemma near_un o x y : near any (un o x) (un o y). Proof. repeat constructor. Qed.
Lemma near_bin o x x' y y' : near any (bin o x x') (bin o y y'). Proof. repeat constructor. Qed.
Lemma near_checked m o x x' y y' : near any (checked m o x x') (checked m o y y').
Proof. destruct m; [apply Near_over; [reflexivity|reflexivity|]|]; repeat constructor. Qed.
Lemma near_load n a b i : both n a b -> (i < n)%nat -> near any (load a i) (load b i).
Proof.
  intros [A B] L. destruct (nth_error a i) eqn:E; [|apply nth_error_None in E; lia].
  destruct (nth_error b i) eqn:F; [|apply nth_error_None in F; lia]. eapply Near_load; eauto. constructor. exact I.
Qed.
Lemma near_store n i x y a b : both n a b -> (i < n)%nat -> near (both n) (store i x a) (store i y b).
Proof. intros [A B] L. apply Near_store; [congruence|lia|]. constructor. unfold both. rewrite !upd_len. auto. Qed.
Lemma near_consts l : near (both (length l)) (consts l) (consts l).
Proof.
  induction l as [|z l IH]; cbn [consts]; [constructor; split; reflexivity|].
  eapply near_bind; [apply near_const|]. intros a b _. eapply near_bind; [exact IH|]. intros u v [U V]. constructor. split; cbn [length]; auto.
Qed.
(** lists of the same length *)
Definition eqlen (a b : list Z) : Prop := length a = length b.
Lemma any_list {A B} : forall (l : list A) (l' : list B), length l = length l' -> Forall2 any l l'.
Proof. induction l as [|x l IH]; intros [|y l'] E; try discriminate; constructor; [exact I|apply IH; injection E as E; exact E]. Qed.
Lemma same_list {A} (P : A -> Prop) : forall (l : list A), Forall P l -> Forall2 (fun x y => x = y /\ P x) l l.
Proof. induction 1; constructor; auto. Qed.
Lemma Forall2_len {A B} (R : A -> B -> Prop) l l' : Forall2 R l l' -> length l = length l'.
Proof. induction 1; cbn [length]; congruence. Qed.
Lemma chunks_eqlen k : forall n a b, (length a <= n)%nat -> eqlen a b -> Forall2 eqlen (chunks k a) (chunks k b).
Proof.
  intros n a b _ E. unfold chunks. unfold eqlen in E. rewrite E. generalize (length b) as f. intros f. clear n. revert a b E.
  induction f as [|f IH]; intros [|x a] [|y b] E; try discriminate; cbn [chunks_fuel]; constructor.
  - unfold eqlen. rewrite !firstn_length, E. reflexivity.
  - apply IH. rewrite !skipn_length, E. reflexivity.
Qed.
Lemma near_read e n a b : (n mod 4 = 0)%nat -> both n a b -> near (both (n / 4)) (t_read_u32 e a) (t_read_u32 e b).
Proof.
  intros N [A B]. assert (LA := chunks_length 4 a ltac:(lia)). rewrite A in LA. specialize (LA N).
  unfold t_read_u32. eapply near_weaken.
  - apply (near_map eqlen any); [apply (chunks_eqlen 4 n); unfold eqlen; lia|]. intros i j Hij. apply Near_pack; [exact Hij|]. constructor. exact I.
  - cbv beta. intros u v [F L]. apply Forall2_len in F. split; congruence.
Qed.
Lemma near_write e n a b : both n a b -> near (both (4 * n)) (t_write_u32 e a) (t_write_u32 e b).
Proof.
  intros [A B]. unfold t_write_u32. eapply near_bind.
  - apply (near_map any (both 4)); [apply any_list; congruence|]. intros i j _. apply Near_unpack. cbv zeta. constructor.
    split; destruct e; rewrite ?rev_length, map_length, le_length; reflexivity.
  - cbv beta. intros u v [F L]. constructor. rewrite A in L. clear - F L. revert n L. induction F as [|x y u v [X Y] F IH]; intros n L; cbn [length] in L; subst n.
    + split; reflexivity.
    + destruct (IH _ eq_refl) as [U V]. split; cbn [concat]; rewrite app_length; lia.
Qed.
(** one instruction on both sides *)
Ltac nst :=
  lazymatch goal with
  | |- near _ (pbind (const _) _) _ => eapply near_bind; [apply near_const|intros ? ? _]
  | |- near _ (pbind (un _ _) _) _ => eapply near_bind; [apply near_un|intros ? ? _]
  | |- near _ (pbind (bin _ _ _) _) _ => eapply near_bind; [apply near_bin|intros ? ? _]
  | |- near _ (pbind (checked _ _ _ _) _) _ => eapply near_bind; [apply near_checked|intros ? ? _]
  | |- near _ (pbind (load _ _) _) _ => eapply near_bind; [eapply near_load; [eassumption|lia]|intros ? ? _]
  | |- near _ (pbind (store _ _ _) _) _ => eapply near_bind; [eapply near_store; [eassumption|lia]|intros ? ? ?]
  end.

(** ** ChaCha20 *)
Lemma near_new k k' n n' : both 32 k k' -> both 12 n n' -> near (both 16) (t_chacha_new k n) (t_chacha_new k' n').
Proof.
  intros K N. assert (Hk := K). assert (Hn := N). destruct Hk as [A A'], Hn as [B B']. unfold t_chacha_new. rewrite A, A', B, B'. cbn [Nat.eqb negb].
  eapply near_bind; [apply near_consts|]. intros ? ? [C C']. eapply near_bind; [apply (near_read false 32); [reflexivity|exact K]|]. intros ? ? [D D'].
  nst. eapply near_bind; [apply (near_read false 12); [reflexivity|exact N]|]. intros ? ? [E E']. constructor.
  split; rewrite !app_length; cbn [length] in *; rewrite ?C, ?D, ?E, ?C', ?D', ?E'; reflexivity.
Qed.
Lemma near_qadd e e' x y : both 16 e e' -> (x < 16)%nat -> (y < 16)%nat -> near (both 16) (t_qadd e x y) (t_qadd e' x y).
Proof. intros E X Y. unfold t_qadd. do 3 nst. apply near_store; assumption. Qed.
Lemma near_qxor e e' x y : both 16 e e' -> (x < 16)%nat -> (y < 16)%nat -> near (both 16) (t_qxor e x y) (t_qxor e' x y).
Proof. intros E X Y. unfold t_qxor. do 3 nst. apply near_store; assumption. Qed.
Lemma near_qrot e e' x n : both 16 e e' -> (x < 16)%nat -> near (both 16) (t_qrot e x n) (t_qrot e' x n).
Proof. intros E X. unfold t_qrot. do 2 nst. apply near_store; assumption. Qed.
Definition qlt (q : nat * nat * nat * nat) : Prop := let '(a, b, c, d) := q in (a < 16 /\ b < 16 /\ c < 16 /\ d < 16)%nat.
Lemma near_quarter e e' q : qlt q -> both 16 e e' -> near (both 16) (t_quarter_round e q) (t_quarter_round e' q).
Proof.
  destruct q as [[[a b] c] d]. intros (A & B & C & D) E. unfold t_quarter_round.
  do 11 (eapply near_bind; [first [apply near_qadd | apply near_qxor | apply near_qrot]; assumption|intros ? ? ?]). apply near_qrot; assumption.
Qed.
Lemma qlt_all : Forall qlt quarters.
Proof. unfold quarters. repeat (constructor; [cbn [qlt]; lia|]). constructor. Qed.
Lemma near_round20 v v' : both 16 v v' -> near (both 16) (t_round20 v) (t_round20 v').
Proof.
  intros V. unfold t_round20. eapply near_bind.
  - apply (near_fold (both 16) any); [apply any_list; reflexivity| |exact V]. intros s s' _ _ _ S.
    apply (near_fold (both 16) (fun q q' => q = q' /\ qlt q)); [apply same_list, qlt_all| |exact S]. intros u u' q q' [-> Q] U. apply near_quarter; assumption.
  - intros u u' U. eapply near_weaken.
    + apply (near_map (fun i j => i = j /\ (i < 16)%nat) any); [apply same_list; rewrite Forall_forall; intros i Hi; apply in_seq_lt in Hi; exact Hi|].
      intros i j [-> Hi]. do 2 nst. apply near_bin.
    + cbv beta. rewrite seq_length. intros x y [F L]. apply Forall2_len in F. split; [exact L|congruence].
Qed.
Definition both2 (n k : nat) (s s' : list Z * list Z) : Prop := both n (fst s) (fst s') /\ both k (snd s) (snd s').
Lemma near_next m v v' : both 16 v v' -> near (both2 64 16) (t_chacha_next m v) (t_chacha_next m v').
Proof.
  intros V. unfold t_chacha_next. eapply near_bind; [apply near_round20; exact V|]. intros u u' U. do 4 nst.
  eapply near_bind; [apply near_write; exact U|]. intros ? ? ?. constructor. split; assumption.
Qed.
Lemma near_xor_zip : forall a a' b b', eqlen a a' -> eqlen b b' -> near (fun u v => length u = Nat.min (length a) (length b) /\ eqlen u v) (t_xor_zip a b) (t_xor_zip a' b').
Proof.
  induction a as [|x a IH]; intros [|x' a'] b b' A B; try discriminate; cbn [t_xor_zip].
  - constructor. split; reflexivity.
  - destruct b as [|y b], b' as [|y' b']; try discriminate; [constructor; split; reflexivity|]. injection A as A. injection B as B.
    nst. eapply near_bind; [apply IH; assumption|]. intros u v [U V]. constructor. split; cbn [length]; [rewrite U; reflexivity|]. red in V. unfold eqlen. cbn [length]. congruence.
Qed.
Definition stream_rel (s s' : list Z * list Z) : Prop := eqlen (fst s) (fst s') /\ both 16 (snd s) (snd s').
Lemma near_encrypt m v v' d d' : both 16 v v' -> eqlen d d' -> near stream_rel (t_chacha_encrypt m v d) (t_chacha_encrypt m v' d').
Proof.
  intros V D. unfold t_chacha_encrypt. apply (near_fold stream_rel eqlen); [apply (chunks_eqlen 64 (length d)); [lia|exact D]| |split; [reflexivity|exact V]].
  intros [r u] [r' u'] c c' C [R U]. cbn [fst snd] in *. unfold t_chacha_chunk. eapply near_bind; [apply near_next; exact U|].
  intros [n w] [n' w'] [[N N'] W]. cbn [fst snd] in *. eapply near_bind; [apply near_xor_zip; [red; congruence|exact C]|]. intros x y [_ X].
  constructor. split; [|exact W]. cbn [fst]. unfold eqlen in *. rewrite !app_length. congruence.
Qed.

(** ** Poly1305 *)
Definition poly_rel (p p' : tpoly Z) : Prop := both 5 (tpr p) (tpr p') /\ both 5 (tph p) (tph p') /\ both 4 (tppad p) (tppad p').
Lemma near_le32 b b' i j : both 16 b b' -> near any (t_le32 b i j) (t_le32 b' i j).
Proof. intros [B B']. apply Near_copy. apply Near_pack; [rewrite !firstn_length, !skipn_length; congruence|]. constructor. exact I. Qed.
Lemma near_limb b b' i j n k : both 16 b b' -> near any (t_limb b i j n k) (t_limb b' i j n k).
Proof.
  intros B. unfold t_limb. eapply near_bind; [apply near_le32; exact B|]. intros ? ? _.
  eapply near_bind with (R := any); [destruct (n =? 0); [constructor; exact I|apply near_un]|]. intros ? ? _. nst. apply near_bin.
Qed.
Lemma near_split64 d d' : near any (t_split64 d) (t_split64 d').
Proof. unfold t_split64. do 5 nst. constructor. exact I. Qed.
Lemma near_split32 d d' : near any (t_split32 d) (t_split32 d').
Proof. unfold t_split32. do 3 nst. constructor. exact I. Qed.
Lemma near_dot5 m a0 b0 a1 b1 a2 b2 a3 b3 a4 b4 a0' b0' a1' b1' a2' b2' a3' b3' a4' b4' :
  near any (t_dot5 m a0 b0 a1 b1 a2 b2 a3 b3 a4 b4) (t_dot5 m a0' b0' a1' b1' a2' b2' a3' b3' a4' b4').
Proof. unfold t_dot5. do 8 nst. apply near_checked. Qed.
Ltac nps :=
  lazymatch goal with
  | |- near _ (pbind (t_limb _ _ _ _ _) _) _ => eapply near_bind; [apply near_limb; assumption|intros ? ? _]
  | |- near _ (pbind (t_le32 _ _ _) _) _ => eapply near_bind; [apply near_le32; assumption|intros ? ? _]
  | |- near _ (pbind (t_split64 _) _) _ => eapply near_bind; [apply near_split64|intros [? ?] [? ?] _]
  | |- near _ (pbind (t_split32 _) _) _ => eapply near_bind; [apply near_split32|intros [? ?] [? ?] _]
  | |- near _ (pbind (t_dot5 _ _ _ _ _ _ _ _ _ _ _) _) _ => eapply near_bind; [apply near_dot5|intros ? ? _]
  | |- _ => nst
  end.
Lemma near_poly_new r r' s s' : both 16 r r' -> both 16 s s' -> near poly_rel (t_poly_new r s) (t_poly_new r' s').
Proof.
  intros R S. unfold t_poly_new. do 5 nps. eapply near_bind; [apply near_consts|]. intros ? ? H.
  eapply near_bind; [apply (near_read false 16); [reflexivity|exact S]|]. intros ? ? P. constructor. split; [split; reflexivity|]. split; [exact H|exact P].
Qed.
Lemma near_compute_block m p p' b b' partial : poly_rel p p' -> both 16 b b' -> near poly_rel (t_compute_block m p b partial) (t_compute_block m p' b' partial).
Proof.
  intros (R & H & P) B. unfold t_compute_block. repeat nps. constructor. split; [exact R|]. split; [split; reflexivity|exact P].
Qed.
Lemma near_finalize m p p' : poly_rel p p' -> near (both 16) (t_finalize m p) (t_finalize m p').
Proof. intros (R & H & P). unfold t_finalize. repeat nps. apply (near_write false 4). split; reflexivity. Qed.
Lemma near_poly_block m p p' b b' : poly_rel p p' -> eqlen b b' -> (length b <= 16)%nat -> near poly_rel (t_poly_block m p b) (t_poly_block m p' b').
Proof.
  intros P B L. unfold t_poly_block. red in B. rewrite <- B. destruct (Nat.eqb_spec (length b) 16) as [E|E].
  - apply near_compute_block; [exact P|split; congruence].
  - eapply near_bind; [apply near_consts|]. cbn [length]. rewrite repeat_length. intros u v [U V]. apply near_compute_block; [exact P|].
    split; rewrite app_length; lia.
Qed.
Lemma chunks_le k l : Forall (fun c : list Z => (length c <= k)%nat) (chunks k l).
Proof.
  unfold chunks. generalize (length l) as f. intros f. revert l. induction f as [|f IH]; intros [|x l]; cbn [chunks_fuel]; constructor; [|apply IH].
  rewrite firstn_length. lia.
Qed.
Lemma Forall2_l {A B} (P : A -> Prop) (R : A -> B -> Prop) l l' : Forall P l -> Forall2 R l l' -> Forall2 (fun x y => R x y /\ P x) l l'.
Proof. intros F H. induction H; constructor; inversion F; subst; auto. Qed.
Lemma near_authenticate m d d' r r' s s' : eqlen d d' -> both 16 r r' -> both 16 s s' -> near (both 16) (t_authenticate m d r s) (t_authenticate m d' r' s').
Proof.
  intros D R S. unfold t_authenticate. eapply near_bind; [apply near_poly_new; eassumption|]. intros p p' P.
  eapply near_bind; [|intros; apply near_finalize; eassumption].
  apply (near_fold poly_rel (fun b b' => eqlen b b' /\ (length b <= 16)%nat)); [|intros ? ? ? ? [? ?] ?; apply near_poly_block; assumption|exact P].
  apply Forall2_l; [apply chunks_le|apply (chunks_eqlen 16 (length d)); [lia|exact D]].
Qed.

(** ** The AEAD *)
Lemma near_mac m k k' e e' a a' : both 64 k k' -> eqlen e e' -> eqlen a a' -> near (both 16) (t_compute_mac m k e a) (t_compute_mac m k' e' a').
Proof.
  intros [K K'] E A. unfold t_compute_mac, zlen. red in E, A. rewrite <- E, <- A.
  do 4 (eapply near_bind; [apply near_consts|intros ? ? [? ?]]). apply near_authenticate.
  - unfold eqlen. rewrite !app_length. lia.
  - split; rewrite firstn_length, skipn_length; lia.
  - split; rewrite firstn_length, skipn_length; lia.
Qed.
Lemma near_seal m k k' n n' d d' a a' : both 32 k k' -> both 12 n n' -> eqlen d d' -> eqlen a a' -> near eqlen (t_seal m k n d a) (t_seal m k' n' d' a').
Proof.
  intros K N D A. unfold t_seal. eapply near_bind; [apply near_new; eassumption|]. intros v v' V.
  eapply near_bind; [apply near_next; exact V|]. intros [pk w] [pk' w'] [P W]. cbn [fst snd] in *.
  eapply near_bind; [apply near_encrypt; eassumption|]. intros [e u] [e' u'] [E _]. cbn [fst snd] in *.
  eapply near_bind; [apply near_mac; eassumption|]. intros t t' [T T']. constructor. red in E. unfold eqlen. rewrite !app_length. congruence.
Qed.
Lemma near_open_body m k k' n n' d d' a a' : both 32 k k' -> both 12 n n' -> eqlen d d' -> (16 <= length d)%nat -> eqlen a a' ->
  near any (t_open_body m k n d a) (t_open_body m k' n' d' a').
Proof.
  intros K N D L A. red in D. unfold t_open_body. cbv zeta. eapply near_bind; [apply near_new; eassumption|]. intros v v' V.
  eapply near_bind; [apply near_next; exact V|]. intros [pk w] [pk' w'] [P W]. cbn [fst snd] in *.
  eapply near_bind; [apply near_mac; [exact P|red; rewrite !firstn_length; congruence|exact A]|]. intros t t' T.
  eapply near_bind; [apply near_encrypt; [exact W|red; rewrite !firstn_length; congruence]|]. intros [e u] [e' u'] _. nst.
  eapply near_bind with (R := any); [|intros ? ? _; constructor; exact I].
  assert (X : both 16 (skipn (length d - MAC_LEN) d) (skipn (length d' - MAC_LEN) d')) by (unfold MAC_LEN; split; rewrite skipn_length; lia).
  apply (near_fold any (fun i j => i = j /\ (i < 16)%nat)); [apply same_list; rewrite Forall_forall; intros i Hi; apply in_seq_lt in Hi; exact Hi| |exact I].
  intros s s' i j [-> Hi] _. do 3 nst. apply near_bin.
Qed.
