(** C106: proofs. *)
From Verif Require Import Spec_Pad Spec_Any Spec_Shape P_Util P_Codec P_RecordW P_RecordR P_Record P_Chacha P_Aead P_Client P_Client2 P_App P_App2 P_Client3 P_Client4 P_Ops P_Client5 P_Life P_Any P_Shape.
From Coq Require Import ZifyBool ZifyNat ZifyN.
Import String.StringSyntax.
Local Open Scope string_scope.
Local Open Scope list_scope.
Local Open Scope Z_scope.
#[local] Opaque SHA256 HMAC aead_decrypt aead_encrypt compute_keys PRF nmul chacha20_block.

(** ** The real cipher *)
Lemma pad_later key nonce i : chacha_pad key nonce (64 + i)%nat = keystream key nonce 1 i.
Proof.
  unfold chacha_pad, keystream. replace ((64 + i) mod 64)%nat with (i mod 64)%nat by (replace (64 + i)%nat with (i + 1 * 64)%nat by lia; rewrite Nat.mod_add by lia; reflexivity).
  replace ((64 + i) / 64)%nat with (1 + i / 64)%nat by (replace (64 + i)%nat with (i + 1 * 64)%nat by lia; rewrite Nat.div_add by lia; lia).
  rewrite Nat2Z.inj_add. reflexivity.
Qed.
Lemma masked_chacha key nonce data : masked (chacha_pad key) nonce data = chacha20_encrypt key 1 nonce data.
Proof. unfold masked, chacha20_encrypt. apply map_ext. intros i. rewrite pad_later. reflexivity. Qed.
Lemma seq_slice (l : bytes) : forall a n, (a + n <= length l)%nat -> map (fun i => nth i l x00) (seq a n) = firstn n (skipn a l).
Proof.
  induction l as [|x l IH]; intros a n L.
  - cbn [length] in L. replace n with 0%nat by lia. reflexivity.
  - destruct a as [|a].
    + destruct n as [|n]; [reflexivity|]. cbn [seq map nth skipn firstn]. f_equal. rewrite <- seq_shift, map_map. cbn [length] in L.
      specialize (IH 0%nat n ltac:(lia)). cbn [skipn] in IH. exact IH.
    + rewrite <- seq_shift, map_map. cbn [nth skipn length] in *. apply IH. lia.
Qed.
Lemma pad_first key nonce a n : (a + n <= 64)%nat -> length (chacha20_block key 0 nonce) = 64%nat -> map (chacha_pad key nonce) (seq a n) = firstn n (skipn a (chacha20_block key 0 nonce)).
Proof.
  intros L B. rewrite <- seq_slice by lia. apply map_ext_in. intros i I. apply in_seq in I. unfold chacha_pad.
  rewrite Nat.mod_small, Nat.div_small by lia. reflexivity.
Qed.
Theorem seal_chacha key nonce aad data : aead_seal key nonce aad data = seal_by (chacha_pad key) nonce aad data.
Proof.
  unfold aead_seal, seal_by, poly_key_gen. cbv zeta. rewrite masked_chacha.
  assert (L : length (chacha20_block key 0 nonce) = 64%nat) by apply chacha20_block_length.
  rewrite !pad_first by (exact L || lia). cbn [skipn]. rewrite firstn_firstn. change (Nat.min 16 32) with 16%nat.
  replace (firstn 16 (skipn 16 (chacha20_block key 0 nonce))) with (skipn 16 (firstn 32 (chacha20_block key 0 nonce))); [reflexivity|].
  rewrite skipn_firstn_comm. reflexivity.
Qed.

(** ** Any key stream *)
Lemma masked_length B n d : length (masked B n d) = length d.
Proof. unfold masked. rewrite map_length, seq_length. reflexivity. Qed.
Lemma record_chacha key iv k t f : sealed_record key iv k t f = record_by (chacha_pad key) iv k t f.
Proof. unfold sealed_record, record_by. rewrite seal_chacha. reflexivity. Qed.
Lemma items_chacha key iv : forall it k, sealed_items key iv k it = items_by (chacha_pad key) iv k it.
Proof. induction it as [|[t f] it IH]; intros k; [reflexivity|]. cbn [sealed_items items_by]. rewrite record_chacha, IH. reflexivity. Qed.
Lemma seal_ext B B' n a d d' : length d = length d' -> (forall i, (i < 64)%nat -> B n i = B' n i) -> masked B n d = masked B' n d' -> seal_by B n a d = seal_by B' n a d'.
Proof.
  intros L E M. unfold seal_by. rewrite M. assert (X : forall a k, (a + k <= 64)%nat -> map (B n) (seq a k) = map (B' n) (seq a k)) by (intros a0 k Q; apply map_ext_in; intros i I; apply in_seq in I; apply E; lia).
  rewrite !X by lia. reflexivity.
Qed.
Lemma masked_ext B B' n d d' : length d = length d' -> (forall i, (i < length d)%nat -> bxor (nth i d x00) (B n (64 + i)%nat) = bxor (nth i d' x00) (B' n (64 + i)%nat)) -> masked B n d = masked B' n d'.
Proof. intros L E. unfold masked. rewrite <- L. apply map_ext_in. intros i I. apply in_seq in I. apply E. lia. Qed.
Lemma record_ext B B' iv k t f f' : length f = length f' -> (forall i, (i < 64)%nat -> B (rfc_nonce iv k) i = B' (rfc_nonce iv k) i) ->
  (forall i, (i < length f)%nat -> bxor (nth i f x00) (B (rfc_nonce iv k) (64 + i)%nat) = bxor (nth i f' x00) (B' (rfc_nonce iv k) (64 + i)%nat)) ->
  record_by B iv k t f = record_by B' iv k t f'.
Proof.
  intros L E M. unfold record_by. assert (Z : zlen f = zlen f') by (unfold zlen; rewrite L; reflexivity). rewrite <- Z. f_equal.
  apply seal_ext; [exact L|exact E|]. apply masked_ext; assumption.
Qed.
Lemma nonce_eqb_iff a b : nonce_eqb a b = true <-> a = b.
Proof. unfold nonce_eqb. destruct (list_eq_dec byte_eq_dec a b); split; congruence. Qed.
Lemma nonce_eqb_refl a : nonce_eqb a a = true. Proof. apply nonce_eqb_iff. reflexivity. Qed.
(** what is not changed *)
Lemma turn_else iv B n i : forall it k it', (forall j, k <= j < k + zlen it -> n <> rfc_nonce iv j) \/ (i < 64)%nat -> turn iv k it it' B n i = B n i.
Proof.
  induction it as [|[t f] it IH]; intros k [|[t' f'] it'] H; try reflexivity. cbn [turn]. rewrite zlen_cons in H. pose proof (zlen_nonneg it) as N.
  destruct (nonce_eqb n (rfc_nonce iv k) && (64 <=? i)%nat && (i <? 64 + length f)%nat) eqn:E.
  - apply andb_prop in E as [E _]. apply andb_prop in E as [E1 E2]. apply nonce_eqb_iff in E1. apply Nat.leb_le in E2.
    destruct H as [H|H]; [destruct (H k ltac:(lia) E1)|lia].
  - apply IH. destruct H as [H|H]; [left; intros j J; apply H; lia|right; exact H].
Qed.
Lemma bxor_swap a b c : bxor a (bxor b c) = bxor b (bxor a c).
Proof. rewrite !bxor_assoc, (bxor_comm a b). reflexivity. Qed.
(** twice is nothing *)
Theorem turn_twice iv B n i : forall it k it', turn iv k it it' (turn iv k it it' B) n i = B n i.
Proof.
  assert (G : forall it k it' (B1 B2 : otp), B1 n i = B2 n i -> turn iv k it it' B1 n i = turn iv k it it' B2 n i).
  { induction it as [|[t f] it IH]; intros k [|[t' f'] it'] B1 B2 E; try exact E. cbn [turn]. rewrite E, (IH (k + 1) it' B1 B2 E). reflexivity. }
  induction it as [|[t f] it IH]; intros k [|[t' f'] it']; try reflexivity. cbn [turn].
  destruct (nonce_eqb n (rfc_nonce iv k) && (64 <=? i)%nat && (i <? 64 + length f)%nat) eqn:E.
  - rewrite bxor_cancel_r. reflexivity.
  - erewrite G; [apply IH|]. cbv beta. rewrite E. reflexivity.
Qed.
Theorem turn_back iv B n i : forall it k it', evenly it it' -> turn iv k it it' B n i = turn iv k it' it B n i.
Proof.
  intros it k it' A. revert k. induction A as [|[t f] [t' f'] it it' [E1 E2] A IH]; intros k; [reflexivity|]. cbn [turn fst snd] in *.
  rewrite E2, IH, (bxor_comm (nth _ f _)). reflexivity.
Qed.
Lemma items_ext iv B B' : forall it k, (forall j i, k <= j < k + zlen it -> B (rfc_nonce iv j) i = B' (rfc_nonce iv j) i) -> items_by B iv k it = items_by B' iv k it.
Proof.
  induction it as [|[t f] it IH]; intros k E; [reflexivity|]. cbn [items_by]. rewrite zlen_cons in E. pose proof (zlen_nonneg it) as N. f_equal.
  - apply record_ext; [reflexivity| |]; intros; rewrite E by lia; reflexivity.
  - apply IH. intros j i J. apply E. lia.
Qed.
Lemma evenly_len it it' : evenly it it' -> zlen it' = zlen it.
Proof. unfold zlen. induction 1 as [|x y it it' _ _ IH]; [reflexivity|]. cbn [length]. lia. Qed.
Theorem items_turn iv B : forall it k it', length iv = 12%nat -> evenly it it' -> 0 <= k -> k + zlen it <= 2 ^ 64 -> items_by (turn iv k it it' B) iv k it' = items_by B iv k it.
Proof.
  intros it k it' Li A. revert k. induction A as [|[t f] [t' f'] it it' [E1 E2] A IH]; intros k K R; [reflexivity|]. cbn [fst snd] in E1, E2. subst t'.
  rewrite zlen_cons in R. pose proof (zlen_nonneg it) as N. cbn [items_by]. f_equal.
  - apply record_ext; [congruence| |]; intros i I.
    + apply turn_else. right. exact I.
    + cbn [turn]. rewrite nonce_eqb_refl. replace (64 <=? 64 + i)%nat with true by lia. replace (64 + i <? 64 + length f)%nat with true by lia. cbn [andb].
      replace (64 + i - 64)%nat with i by lia. set (b := B _ _). rewrite (bxor_comm b), <- bxor_assoc, bxor_swap, bxor_cancel_l. reflexivity.
  - rewrite <- (IH (k + 1)) by lia. apply items_ext. intros j i J. cbn [turn].
    pose proof (evenly_len _ _ A) as X.
    destruct (nonce_eqb (rfc_nonce iv j) (rfc_nonce iv k)) eqn:E; [|reflexivity]. apply nonce_eqb_iff in E. apply rfc_nonce_inj in E; lia.
Qed.
Theorem explained iv k it it' B w : length iv = 12%nat -> evenly it it' -> 0 <= k -> k + zlen it <= 2 ^ 64 ->
  (items_by B iv k it = w <-> items_by (turn iv k it it' B) iv k it' = w).
Proof. intros. rewrite items_turn by assumption. reflexivity. Qed.

(** ** The client *)
Lemma parcels_even d d' fs fs' : parcels d fs -> parcels d' fs' -> zlen d = zlen d' -> evenly (map (pair ApplicationDataTy) fs) (map (pair ApplicationDataTy) fs').
Proof.
  intros P P' L. apply parcels_cuts in P, P'. rewrite L, <- P' in P. clear - P. revert fs' P. induction fs as [|f fs IH]; intros [|f' fs'] P; try discriminate; [constructor|].
  cbn [map] in *. apply (f_equal (fun l => (hd 0 l, tl l))) in P. cbn [hd tl] in P. apply pair_equal_spec in P as [P1 P2].
  constructor; [cbn [fst snd]; unfold zlen in P1; split; [reflexivity|lia]|apply IH; exact P2].
Qed.
Lemma issues_some l : exists it, issues l it.
Proof.
  induction l as [|[n|d|] l (it & H)]; [exists []; constructor|eexists; constructor; exact H| |eexists; constructor; exact H].
  destruct (parcels_any d) as (fs & P). eexists. econstructor; [exact P|exact H].
Qed.
Lemma issues_one l it : issues l it -> forall it', issues l it' -> it' = it.
Proof.
  induction 1 as [|n l it H IH|d fs l it P H IH|l it H IH]; intros it' X; inversion X; subst; [reflexivity|auto| |f_equal; auto].
  f_equal; [|auto]. apply parcels_iff in P. match goal with Q : parcels d _ |- _ => apply parcels_iff in Q end. congruence.
Qed.
Lemma issues_even l it : issues l it -> forall l' it', same_size l l' -> issues l' it' -> evenly it it'.
Proof.
  induction 1 as [|n l it H IH|d fs l it P H IH|l it H IH]; intros l' it' S X; inversion S as [|o o' l1 l1' E F]; subst.
  - inversion X; subst. constructor.
  - destruct o' as [n'|d'|]; try contradiction. inversion X as [|n0 l0 it1 H'| |]; subst. exact (IH _ _ F H').
  - destruct o' as [n'|d'|]; try contradiction. inversion X as [| |d0 fs' l0 it1 P' H'|]; subst. apply Forall2_app; [exact (parcels_even _ _ _ _ P P' E)|exact (IH _ _ F H')].
  - destruct o' as [n'|d'|]; try contradiction. inversion X as [| | |l0 it1 H']; subst. constructor; [split; reflexivity|exact (IH _ _ F H')].
Qed.
Lemma legal_sum fs : Forall legal_fragment fs -> zlen fs <= zlen (concat fs).
Proof. exact (legal_count fs). Qed.
Lemma issues_len l it : issues l it -> zlen it <= cost l.
Proof.
  unfold cost. induction 1 as [|n l it H IH|d fs l it P H IH|l it H IH]; cbn [fold_right call_cost]; [discriminate|exact IH| |rewrite zlen_cons; lia].
  apply parcels_iff in P. destruct (fragments_legal d) as (H1 & H2 & _). cbv zeta in H1, H2. rewrite <- P in H1, H2. apply legal_sum in H2. rewrite H1 in H2.
  rewrite zlen_app. unfold zlen in *. rewrite map_length. lia.
Qed.
Lemma items_stream key iv t : forall fs k, sealed_items key iv k (map (pair t) fs) = sealed_stream key iv k t fs.
Proof. induction fs as [|f fs IH]; intros k; [reflexivity|]. cbn [map sealed_items sealed_stream]. rewrite IH. reflexivity. Qed.
Lemma calls_issue m key iv : forall l c k as_ c' it, keyed_w m (c_writer c) key iv k -> k + cost l < 2 ^ 64 -> calls m l c = (as_, c') -> Forall2 good_answer l as_ -> issues l it ->
  w_out (c_writer c') = w_out (c_writer c) ++ sealed_items key iv k it.
Proof.
  induction l as [|o l IH]; intros c k as_ c' it W K E G S.
  - inversion S; subst. cbn [calls] in E. apply pair_equal_spec in E as [_ <-]. cbn [sealed_items]. rewrite app_nil_r. reflexivity.
  - cbn [calls] in E. assert (K' : cost (o :: l) = call_cost o + cost l) by reflexivity. rewrite K' in *. pose proof (cost_nonneg l) as N.
    destruct (do_call m o c) as [a c1] eqn:D. destruct (calls m l c1) as [r c2] eqn:C. apply pair_equal_spec in E as [<- <-].
    inversion G as [|? ? ? ? G1 G2]; subst. destruct o as [n|d|]; cbn [do_call call_cost good_answer] in *; inversion S as [|? ? ? S1|? fs ? it1 P S1|? ? S1]; subst.
    + destruct (client_read m n c) as [x c1'] eqn:R. apply pair_equal_spec in D as [<- <-]. apply read_writer in R as [R _]. rewrite <- R in *. eapply IH; eauto; lia.
    + destruct (write_dispatch m key iv k d c fs P W ltac:(lia)) as (ok & out & k' & c1' & Di & Ew & _ & _ & O & W' & B). rewrite Ew in D. apply pair_equal_spec in D as [<- <-].
      destruct ok; [|discriminate G1]. destruct (dispatch_all _ _ _ _ _ _ _ _ _ _ Di eq_refl) as [-> ->].
      rewrite (IH c1' (k + zlen fs) r c2 it1 W' ltac:(lia) C G2 S1), O, sealed_items_app, items_stream, app_assoc.
      replace (zlen (map (pair ApplicationDataTy) fs)) with (zlen fs) by (unfold zlen; rewrite map_length; reflexivity). reflexivity.
    + destruct (close_dispatch m key iv k c W ltac:(lia)) as (ok & out & k' & c1' & Di & Ew & _ & _ & O & W' & B). rewrite Ew in D. apply pair_equal_spec in D as [<- <-].
      destruct ok; [|discriminate G1]. destruct (dispatch_all _ _ _ _ _ _ _ _ _ _ Di eq_refl) as [-> ->].
      rewrite (IH c1' (k + 1) r c2 _ W' ltac:(lia) C G2 S1), O. cbn [sealed_items sealed_stream]. rewrite app_nil_r, app_assoc. reflexivity.
Qed.
Theorem hidden m s p g c l l' as_ c1 as' c2 : client_new m s p g = (Ok tt, c) -> 1 + cost l < 2 ^ 64 -> same_size l l' ->
  calls m l c = (as_, c1) -> Forall2 good_answer l as_ -> calls m l' c = (as', c2) -> Forall2 good_answer l' as' ->
  exists ss it it', reached m s g (Complete ss) /\ issues l it /\ issues l' it' /\
    let key := k_client (s_keys ss) in let B := turn (iv_client (s_keys ss)) 1 it it' (chacha_pad key) in
    w_out (c_writer c1) = uttering ss (chacha_pad key) it /\ w_out (c_writer c2) = uttering ss (chacha_pad key) it' /\
    uttering ss B it' = w_out (c_writer c1) /\ uttering ss B it = w_out (c_writer c2) /\ forall n i, (i < 64)%nat -> B n i = chacha_pad key n i.
Proof.
  intros E K S C G C' G'. destruct (connected _ _ _ _ _ E) as (ss & R & _ & O & W & _). destruct (issues_some l) as (it & I1). destruct (issues_some l') as (it' & I2).
  exists ss, it, it'. split; [exact R|]. split; [exact I1|]. split; [exact I2|]. cbv zeta. pose proof (issues_even _ _ I1 _ _ S I2) as A.
  assert (K' : cost l' = cost l).
  { clear - S. unfold cost. induction S as [|o o' l l' H S IH]; [reflexivity|]. cbn [fold_right]. rewrite IH. destruct o, o'; try contradiction; cbn [call_cost]; lia. }
  assert (Li : length (iv_client (s_keys ss)) = 12%nat) by apply W. pose proof (issues_len _ _ I1) as L1.
  set (key := k_client (s_keys ss)) in *. set (iv := iv_client (s_keys ss)) in *.
  assert (H0 : forall B it0, (forall i, B (rfc_nonce iv 0) i = chacha_pad key (rfc_nonce iv 0) i) -> uttering ss B it0 = stage_out (Complete ss) ++ items_by B iv 1 it0).
  { intros B it0 H. unfold uttering. fold iv. cbn [stage_out]. unfold flight_finished. fold key iv. rewrite record_chacha, <- !app_assoc. do 3 f_equal.
    apply record_ext; [reflexivity| |]; intros; rewrite H; reflexivity. }
  assert (T : forall a b, zlen a = zlen it -> forall i, turn iv 1 a b (chacha_pad key) (rfc_nonce iv 0) i = chacha_pad key (rfc_nonce iv 0) i).
  { intros a b La i. apply turn_else. left. intros j J X. apply rfc_nonce_inj in X; [lia|exact Li|lia|]. rewrite La in J. lia. }
  rewrite (calls_issue m key iv l c 1 _ _ it W K C G I1), (calls_issue m key iv l' c 1 _ _ it' W ltac:(lia) C' G' I2), O, !items_chacha, !H0 by (intros; first [reflexivity|apply T; reflexivity]).
  split; [reflexivity|]. split; [reflexivity|]. split; [rewrite items_turn by (exact Li || exact A || lia); reflexivity|]. split.
  - assert (X : items_by (turn iv 1 it it' (chacha_pad key)) iv 1 it = items_by (turn iv 1 it' it (chacha_pad key)) iv 1 it) by (apply items_ext; intros; apply turn_back; exact A).
    rewrite X, items_turn; [reflexivity|exact Li| |lia|rewrite (evenly_len _ _ A); lia].
    clear - A. induction A as [|x y a b [H1 H2] A IH]; constructor; [split; congruence|exact IH].
  - intros n i H. apply turn_else. right. exact H.
Qed.
