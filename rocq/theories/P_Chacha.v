(** ChaCha20: the model against RFC 7539. *)
From Verif Require Export M_Chacha20 P_Word.
From Coq Require Import ZifyBool ZifyNat ZifyN.

(** a list of sixteen words holds the specification state [s] *)
Definition holds (v : list Z) (s : cstate) : Prop :=
  length v = 16%nat /\ (forall i, (i < 16)%nat -> nth i v 0 = s i) /\ (forall i, (i < 16)%nat -> is_word (s i)).

Lemma holds_word v s i : holds v s -> (i < 16)%nat -> is_word (at_ v i).
Proof. intros (_ & H & W) Hi. unfold at_. rewrite H by assumption. auto. Qed.

Lemma QUARTERROUND_word a b c d :
  is_word a -> is_word b -> is_word c -> is_word d ->
  let '(a', b', c', d') := QUARTERROUND (a, b, c, d) in
  is_word a' /\ is_word b' /\ is_word c' /\ is_word d'.
Proof.
  intros Ha Hb Hc Hd. unfold QUARTERROUND. fold wadd.
  assert (R : forall x n, is_word x -> 0 < n < 32 -> is_word (rol x n)).
  { intros x n Hx Hn. rewrite <- rotate_left_rol by assumption. apply rol_word; assumption. }
  change add32s with wadd.
  repeat match goal with |- _ /\ _ => split end;
    repeat first [ apply wadd_word | apply R; [|lia] | apply lxor_word | assumption ].
Qed.

Lemma quarter_round_nth v a b c d :
  length v = 16%nat -> (a < 16)%nat -> (b < 16)%nat -> (c < 16)%nat -> (d < 16)%nat ->
  NoDup [a; b; c; d] -> (forall i, (i < 16)%nat -> is_word (nth i v 0)) ->
  length (quarter_round v a b c d) = 16%nat /\
  let '(a', b', c', d') := QUARTERROUND (at_ v a, at_ v b, at_ v c, at_ v d) in
  forall i, (i < 16)%nat ->
    nth i (quarter_round v a b c d) 0 =
    if Nat.eqb i a then a' else if Nat.eqb i b then b' else if Nat.eqb i c then c'
    else if Nat.eqb i d then d' else nth i v 0.
Proof.
  intros L La Lb Lc Ld ND W.
  assert (Nab : a <> b /\ a <> c /\ a <> d /\ b <> c /\ b <> d /\ c <> d).
  { inversion ND as [|? ? N1 ND1]; subst. inversion ND1 as [|? ? N2 ND2]; subst.
    inversion ND2 as [|? ? N3 ND3]; subst. cbn in *. intuition congruence. }
  destruct Nab as (Nab & Nac & Nad & Nbc & Nbd & Ncd).
  pose proof (W a La) as Wa. pose proof (W b Lb) as Wb. pose proof (W c Lc) as Wc. pose proof (W d Ld) as Wd.
  unfold QUARTERROUND, at_. change add32s with wadd.
  set (A := nth a v 0) in *. set (B := nth b v 0) in *. set (C := nth c v 0) in *. set (D := nth d v 0) in *.
  set (A1 := wadd A B). assert (WA1 : is_word A1) by apply wadd_word.
  set (D1 := rol (Z.lxor D A1) 16).
  assert (ED1 : rotate_left (Z.lxor D A1) 16 = D1) by (apply rotate_left_rol; [apply lxor_word; assumption|lia]).
  assert (WD1 : is_word D1) by (rewrite <- ED1; apply rol_word; [apply lxor_word; assumption|lia]).
  set (C1 := wadd C D1). assert (WC1 : is_word C1) by apply wadd_word.
  set (B1 := rol (Z.lxor B C1) 12).
  assert (EB1 : rotate_left (Z.lxor B C1) 12 = B1) by (apply rotate_left_rol; [apply lxor_word; assumption|lia]).
  assert (WB1 : is_word B1) by (rewrite <- EB1; apply rol_word; [apply lxor_word; assumption|lia]).
  set (A2 := wadd A1 B1). assert (WA2 : is_word A2) by apply wadd_word.
  set (D2 := rol (Z.lxor D1 A2) 8).
  assert (ED2 : rotate_left (Z.lxor D1 A2) 8 = D2) by (apply rotate_left_rol; [apply lxor_word; assumption|lia]).
  assert (WD2 : is_word D2) by (rewrite <- ED2; apply rol_word; [apply lxor_word; assumption|lia]).
  set (C2 := wadd C1 D2). assert (WC2 : is_word C2) by apply wadd_word.
  set (B2 := rol (Z.lxor B1 C2) 7).
  assert (EB2 : rotate_left (Z.lxor B1 C2) 7 = B2) by (apply rotate_left_rol; [apply lxor_word; assumption|lia]).
  assert (STEP : forall (l : list Z) k x j, length l = 16%nat -> (k < 16)%nat ->
            nth j (upd k x l) 0 = if Nat.eqb j k then x else nth j l 0).
  { intros l k x j Ll Hk. destruct (Nat.eqb_spec j k) as [->|N].
    - apply upd_nth_same. lia.
    - apply upd_nth_other. congruence. }
  assert (ab : Nat.eqb a b = false) by (apply Nat.eqb_neq; congruence).
  assert (ba : Nat.eqb b a = false) by (apply Nat.eqb_neq; congruence).
  assert (ac : Nat.eqb a c = false) by (apply Nat.eqb_neq; congruence).
  assert (ca : Nat.eqb c a = false) by (apply Nat.eqb_neq; congruence).
  assert (ad : Nat.eqb a d = false) by (apply Nat.eqb_neq; congruence).
  assert (da : Nat.eqb d a = false) by (apply Nat.eqb_neq; congruence).
  assert (bc : Nat.eqb b c = false) by (apply Nat.eqb_neq; congruence).
  assert (cb : Nat.eqb c b = false) by (apply Nat.eqb_neq; congruence).
  assert (bd : Nat.eqb b d = false) by (apply Nat.eqb_neq; congruence).
  assert (db : Nat.eqb d b = false) by (apply Nat.eqb_neq; congruence).
  assert (cd : Nat.eqb c d = false) by (apply Nat.eqb_neq; congruence).
  assert (dc : Nat.eqb d c = false) by (apply Nat.eqb_neq; congruence).
  pose (R := fun (l : list Z) x y z w => length l = 16%nat /\ forall j,
     nth j l 0 = if Nat.eqb j a then x else if Nat.eqb j b then y else if Nat.eqb j c then z
                 else if Nat.eqb j d then w else nth j v 0).
  assert (R0 : R v A B C D).
  { split; [exact L|]. intros j. destruct (Nat.eqb_spec j a) as [->|]; [reflexivity|].
    destruct (Nat.eqb_spec j b) as [->|]; [reflexivity|]. destruct (Nat.eqb_spec j c) as [->|]; [reflexivity|].
    destruct (Nat.eqb_spec j d) as [->|]; reflexivity. }
  assert (GA : forall l x y z w, R l x y z w -> nth a l 0 = x /\ nth b l 0 = y /\ nth c l 0 = z /\ nth d l 0 = w).
  { intros l x y z w (_ & H). rewrite !H, !Nat.eqb_refl, ba, ca, cb, da, db, dc. auto. }
  assert (UA : forall l x y z w x', R l x y z w -> R (upd a x' l) x' y z w).
  { intros l x y z w x' (Ll & H). split; [rewrite upd_length; exact Ll|]. intros j. rewrite STEP, H by assumption.
    destruct (Nat.eqb j a); reflexivity. }
  assert (UB : forall l x y z w x', R l x y z w -> R (upd b x' l) x x' z w).
  { intros l x y z w x' (Ll & H). split; [rewrite upd_length; exact Ll|]. intros j. rewrite STEP, H by assumption.
    destruct (Nat.eqb_spec j b) as [->|]; [rewrite ba; reflexivity|reflexivity]. }
  assert (UC : forall l x y z w x', R l x y z w -> R (upd c x' l) x y x' w).
  { intros l x y z w x' (Ll & H). split; [rewrite upd_length; exact Ll|]. intros j. rewrite STEP, H by assumption.
    destruct (Nat.eqb_spec j c) as [->|]; [rewrite ca, cb; reflexivity|reflexivity]. }
  assert (UD : forall l x y z w x', R l x y z w -> R (upd d x' l) x y z x').
  { intros l x y z w x' (Ll & H). split; [rewrite upd_length; exact Ll|]. intros j. rewrite STEP, H by assumption.
    destruct (Nat.eqb_spec j d) as [->|]; [rewrite da, db, dc; reflexivity|reflexivity]. }
  enough (RF : forall l, R l A B C D -> R (quarter_round l a b c d) A2 B2 C2 D2).
  { destruct (RF v R0) as (LF & EF). split; [exact LF|]. intros i _. apply EF. }
  clear R0. clearbody R. intros l R0. cbv beta delta [quarter_round at_].
  Ltac stp U G l R0 x' y' z' w' :=
    match goal with |- ?R (let e := ?X in @?f e) ?a ?b ?c ?d =>
      cut (forall e, R e x' y' z' w' -> R (f e) a b c d);
      [ let K := fresh in intros K; apply (K X)
      | let e := fresh "l" in let R1 := fresh "Q" in cbv beta; intros e R1; clear R0; try clear l; rename e into l; rename R1 into R0 ]
    end;
    [ let Ga := fresh in let Gb := fresh in let Gc := fresh in let Gd := fresh in
      destruct (G _ _ _ _ _ R0) as (Ga & Gb & Gc & Gd); rewrite ?Ga, ?Gb, ?Gc, ?Gd;
      match goal with E : rotate_left ?t _ = _ |- context [rotate_left ?t _] => rewrite E | _ => idtac end;
      eapply U; exact R0 | ].
  stp UA GA l R0 A1 B C D. stp UD GA l R0 A1 B C (Z.lxor D A1). stp UD GA l R0 A1 B C D1.
  stp UC GA l R0 A1 B C1 D1. stp UB GA l R0 A1 (Z.lxor B C1) C1 D1. stp UB GA l R0 A1 B1 C1 D1.
  stp UA GA l R0 A2 B1 C1 D1. stp UD GA l R0 A2 B1 C1 (Z.lxor D1 A2). stp UD GA l R0 A2 B1 C1 D2.
  stp UC GA l R0 A2 B1 C2 D2. stp UB GA l R0 A2 (Z.lxor B1 C2) C2 D2.
  destruct (GA _ _ _ _ _ R0) as (Ga & Gb & Gc & Gd). rewrite Gb, EB2. eapply UB. exact R0.
Qed.

Lemma holds_QR v s a b c d :
  holds v s -> (a < 16)%nat -> (b < 16)%nat -> (c < 16)%nat -> (d < 16)%nat -> NoDup [a; b; c; d] ->
  holds (quarter_round v a b c d) (QR a b c d s).
Proof.
  intros (L & E & W) La Lb Lc Ld ND.
  pose proof (quarter_round_nth v a b c d L La Lb Lc Ld ND) as H.
  destruct H as (HL & H).
  { intros i Hi. rewrite E by assumption. auto. }
  unfold at_ in H. rewrite !E in H by assumption.
  pose proof (QUARTERROUND_word (s a) (s b) (s c) (s d) (W a La) (W b Lb) (W c Lc) (W d Ld)) as HW.
  unfold holds, QR. destruct (QUARTERROUND (s a, s b, s c, s d)) as [[[a' b'] c'] d'] eqn:Q.
  split; [exact HL|]. split.
  - intros i Hi. rewrite H by assumption. rewrite E by assumption. reflexivity.
  - intros i Hi. destruct HW as (? & ? & ? & ?).
    destruct (Nat.eqb i a), (Nat.eqb i b), (Nat.eqb i c), (Nat.eqb i d); auto.
Qed.

Lemma holds_double v s : holds v s -> holds (double_round v) (inner_block s).
Proof.
  intros H. unfold double_round, inner_block.
  repeat (apply holds_QR; try lia; [|repeat (constructor; [cbn; lia|]); constructor]). exact H.
Qed.

Lemma holds_iter n v s : holds v s -> holds (Nat.iter n double_round v) (Nat.iter n inner_block s).
Proof. intros H. induction n as [|n IH]; cbn [Nat.iter nat_rect]; [exact H|]. apply holds_double. exact IH. Qed.

(** the words of the state with block counter [n] *)
Definition chacha_at (key nonce : bytes) (n : Z) (v : list Z) : Prop :=
  v = map (chacha_init key n nonce) (seq 0 16) /\ 0 <= n < 2 ^ 32.

Lemma nth_map_seq (f : nat -> Z) n i : (i < n)%nat -> nth i (map f (seq 0 n)) 0 = f i.
Proof.
  intros H. rewrite (nth_indep _ 0 (f 0%nat)) by (rewrite map_length, seq_length; exact H).
  rewrite map_nth, seq_nth by exact H. reflexivity.
Qed.

Lemma chacha_at_holds key nonce n v : chacha_at key nonce n v -> holds v (chacha_init key n nonce).
Proof.
  intros (-> & Hn). split; [rewrite map_length, seq_length; reflexivity|]. split.
  - intros i Hi. apply nth_map_seq. exact Hi.
  - intros i Hi. unfold chacha_init. destruct (i <? 4)%nat; [apply word_le_word|].
    destruct (i <? 12)%nat; [apply word_le_word|]. destruct (Nat.eqb i 12); [exact Hn|apply word_le_word].
Qed.

Lemma round20_spec key nonce n v : chacha_at key nonce n v -> write_u32_le (round20 v) = chacha20_block key n nonce.
Proof.
  intros H. apply chacha_at_holds in H. unfold write_u32_le, round20, chacha20_block.
  rewrite map_map. f_equal. apply map_ext_in. intros i Hi. apply in_seq in Hi.
  destruct (holds_iter 10 _ _ H) as (_ & E & _). destruct H as (_ & E0 & _).
  unfold at_. rewrite E, E0 by lia. reflexivity.
Qed.

Lemma list_eq_nth {A} (d : A) (a b : list A) : length a = length b -> (forall i, (i < length a)%nat -> nth i a d = nth i b d) -> a = b.
Proof.
  revert b; induction a as [|x a IH]; intros [|y b] L H; cbn in L; try discriminate; auto.
  f_equal; [apply (H 0%nat); cbn; lia|]. apply IH; [lia|]. intros i Hi. apply (H (S i)). cbn; lia.
Qed.

Lemma chacha_at_upd key nonce n n' v : chacha_at key nonce n v -> 0 <= n' < 2 ^ 32 -> chacha_at key nonce n' (upd 12 n' v).
Proof.
  intros (-> & Hn) Hn'. split; [|exact Hn'].
  apply (list_eq_nth 0); [rewrite upd_length, !map_length, !seq_length; reflexivity|].
  rewrite upd_length, map_length, seq_length. intros i Hi. rewrite nth_map_seq by exact Hi.
  destruct (Nat.eq_dec i 12) as [->|N].
  - rewrite upd_nth_same by (rewrite map_length, seq_length; lia). reflexivity.
  - rewrite upd_nth_other by congruence. rewrite nth_map_seq by exact Hi.
    unfold chacha_init. destruct (Nat.eqb_spec i 12); [contradiction|]. reflexivity.
Qed.

Lemma chacha_at_12 key nonce n v : chacha_at key nonce n v -> at_ v 12 = n.
Proof. intros (-> & _). unfold at_. rewrite nth_map_seq by lia. reflexivity. Qed.

(** ** [new] *)
Lemma nth_app_at (a b : list Z) i d : nth i (a ++ b) d = if (i <? length a)%nat then nth i a d else nth (i - length a) b d.
Proof.
  destruct (Nat.ltb_spec i (length a)); [apply app_nth1; assumption|apply app_nth2; lia].
Qed.

Lemma chacha_new_spec key nonce : length key = 32%nat -> length nonce = 12%nat ->
  exists v, chacha_new key nonce = Ok v /\ chacha_at key nonce 0 v.
Proof.
  intros Hk Hn. unfold chacha_new. rewrite Hk, Hn. cbn [negb Nat.eqb]. eexists. split; [reflexivity|].
  split; [|lia].
  assert (LK : length (read_u32_le key) = 8%nat) by (rewrite read_u32_le_length; rewrite Hk; reflexivity).
  assert (LN : length (read_u32_le nonce) = 3%nat) by (rewrite read_u32_le_length; rewrite Hn; reflexivity).
  apply (list_eq_nth 0); [rewrite !app_length, LK, LN; reflexivity|].
  rewrite !app_length, LK, LN. cbn [length Nat.add]. intros i Hi.
  rewrite nth_map_seq by exact Hi. rewrite !nth_app_at, LK. cbn [length]. unfold chacha_init.
  destruct (Nat.ltb_spec i 4).
  - do 4 (destruct i as [|i]; [reflexivity|]). lia.
  - destruct (Nat.ltb_spec (i - 4) 8), (Nat.ltb_spec i 12); try lia.
    + apply read_u32_le_nth. lia.
    + destruct (Nat.eqb_spec i 12) as [->|]; [reflexivity|].
      destruct (Nat.ltb_spec (i - 4 - 8) 1); [lia|].
      rewrite read_u32_le_nth by lia. f_equal. lia.
Qed.

Lemma chacha_new_lengths key nonce : chacha_new key nonce = Panic <-> length key <> 32%nat \/ length nonce <> 12%nat.
Proof.
  unfold chacha_new. destruct (Nat.eqb_spec (length key) 32); cbn [negb].
  - destruct (Nat.eqb_spec (length nonce) 12); cbn [negb]; split; intuition discriminate.
  - split; intuition.
Qed.

(** ** [next] *)
Lemma chacha20_block_length key n nonce : length (chacha20_block key n nonce) = 64%nat.
Proof.
  unfold chacha20_block. cbv zeta.
  generalize (fun i => add32s (Nat.iter 10 inner_block (chacha_init key n nonce) i) (chacha_init key n nonce i)).
  intros f. cbn [seq map concat]. rewrite !app_length, !le_length. reflexivity.
Qed.

Lemma chacha_next_ok m key nonce n v : chacha_at key nonce n v -> n + 1 < 2 ^ 32 ->
  exists v', chacha_next m v = Ok (chacha20_block key n nonce, v') /\ chacha_at key nonce (n + 1) v'.
Proof.
  intros H Hn. unfold chacha_next. rewrite (chacha_at_12 _ _ _ _ H).
  rewrite ck_ok by (destruct H; lia). cbn [rbind]. rewrite (round20_spec _ _ _ _ H).
  eexists. split; [reflexivity|]. apply chacha_at_upd with n; [exact H|]. destruct H. lia.
Qed.
Lemma chacha_next_last key nonce v : chacha_at key nonce (2 ^ 32 - 1) v ->
  chacha_next Debug v = Panic /\
  exists v', chacha_next Release v = Ok (chacha20_block key (2 ^ 32 - 1) nonce, v') /\ chacha_at key nonce 0 v'.
Proof.
  intros H. unfold chacha_next. rewrite (chacha_at_12 _ _ _ _ H). split; [reflexivity|].
  change (ck Release 32 (2 ^ 32 - 1 + 1)) with (@Ok Z 0). cbn [rbind]. rewrite (round20_spec _ _ _ _ H).
  eexists. split; [reflexivity|]. apply chacha_at_upd with (2 ^ 32 - 1); [exact H|lia].
Qed.

(** ** [encrypt] *)
#[local] Opaque chacha20_block.
Lemma xor_zip_map ks c : (length c <= length ks)%nat ->
  xor_zip ks c = map (fun i => bxor (nth i c x00) (nth i ks x00)) (seq 0 (length c)).
Proof.
  revert c; induction ks as [|k ks IH]; intros [|x c] H; cbn [length] in *; try lia; auto.
  cbn [xor_zip seq map nth]. rewrite bxor_comm. f_equal.
  rewrite IH by lia. rewrite <- seq_shift, map_map. reflexivity.
Qed.

Lemma blocks64_step n : (0 < n)%nat -> blocks64 n = 1 + blocks64 (n - 64).
Proof.
  intros H. unfold blocks64. destruct (Nat.le_gt_cases n 64).
  - replace (n - 64)%nat with 0%nat by lia. change ((Z.of_nat 0 + 63) / 64) with 0.
    assert (1 <= (Z.of_nat n + 63) / 64 < 2); [|lia].
    split; [apply Z.div_le_lower_bound; lia|apply Z.div_lt_upper_bound; lia].
  - replace (Z.of_nat n + 63) with (1 * 64 + (Z.of_nat (n - 64) + 63)) by lia.
    rewrite Z.div_add_l by lia. reflexivity.
Qed.
Lemma blocks64_nonneg n : 0 <= blocks64 n.
Proof. unfold blocks64. apply Z.div_pos; lia. Qed.

Lemma map_seq_shift {A} (f : nat -> A) a k : map f (seq a k) = map (fun i => f (a + i)%nat) (seq 0 k).
Proof.
  revert a; induction k as [|k IH]; intros a; cbn [seq map]; [reflexivity|].
  rewrite Nat.add_0_r. f_equal. rewrite IH, <- seq_shift, map_map. apply map_ext. intros i. f_equal. lia.
Qed.

Lemma chacha20_encrypt_cut key n nonce data : data <> [] ->
  chacha20_encrypt key n nonce data =
  xor_zip (chacha20_block key n nonce) (firstn 64 data) ++ chacha20_encrypt key (n + 1) nonce (skipn 64 data).
Proof.
  intros Hd.
  rewrite xor_zip_map by (rewrite chacha20_block_length, firstn_length; lia).
  unfold chacha20_encrypt.
  replace (length data) with (length (firstn 64 data) + length (skipn 64 data))%nat at 1
    by (rewrite <- app_length, firstn_skipn; reflexivity).
  rewrite seq_app, map_app. apply f_equal2.
  - apply map_ext_in. intros i Hi. apply in_seq in Hi. rewrite firstn_length in Hi.
    unfold keystream. rewrite Nat.mod_small, Nat.div_small by lia. rewrite Z.add_0_r.
    f_equal. rewrite <- (firstn_skipn 64 data) at 1. apply app_nth1. rewrite firstn_length. lia.
  - destruct (Nat.le_gt_cases (length data) 64).
    + rewrite skipn_all2 by lia. cbn [length seq map]. reflexivity.
    + assert (L : length (firstn 64 data) = 64%nat) by (rewrite firstn_length; lia). rewrite L.
      rewrite Nat.add_0_l. rewrite map_seq_shift. apply map_ext. intros i. apply f_equal2.
      * rewrite <- (firstn_skipn 64 data) at 1. rewrite app_nth2 by lia. f_equal. lia.
      * unfold keystream.
        replace (64 + i)%nat with (i + 1 * 64)%nat by lia.
        rewrite Nat.mod_add, Nat.div_add by lia.
        replace (n + Z.of_nat (i / 64 + 1)) with (n + 1 + Z.of_nat (i / 64)) by lia. reflexivity.
Qed.

Lemma chacha_encrypt_ok m key nonce n v data : chacha_at key nonce n v -> n + blocks64 (length data) < 2 ^ 32 ->
  exists v', chacha_encrypt m v data = Ok (chacha20_encrypt key n nonce data, v') /\
             chacha_at key nonce (n + blocks64 (length data)) v'.
Proof.
  unfold chacha_encrypt. assert (H64 : (0 < 64)%nat) by lia.
  revert n v. induction data as [|data Hd IH] using (chunks_ind 64 H64); intros n v H Hn.
  - exists v. split; [reflexivity|]. rewrite Z.add_0_r. exact H.
  - assert (Hlen : (0 < length data)%nat) by (destruct data; [contradiction|cbn; lia]).
    rewrite blocks64_step in Hn |- * by exact Hlen.
    pose proof (blocks64_nonneg (length data - 64)).
    rewrite chunks_cons by assumption. cbn [chacha_chunks].
    destruct (chacha_next_ok m key nonce n v H) as (v1 & -> & H1); [lia|]. cbn [rbind].
    rewrite <- skipn_length in Hn |- *.
    destruct (IH (n + 1) v1 H1) as (v2 & -> & H2); [lia|]. cbn [rbind].
    exists v2. split; [rewrite (chacha20_encrypt_cut key n nonce data) by assumption; reflexivity|].
    replace (n + (1 + blocks64 (length (skipn 64 data)))) with (n + 1 + blocks64 (length (skipn 64 data))) by lia.
    exact H2.
Qed.

(** the exact boundary: once the counter would reach 2^32 a debug build panics *)
Lemma chacha_encrypt_overflow key nonce n v data : chacha_at key nonce n v -> 2 ^ 32 <= n + blocks64 (length data) ->
  chacha_encrypt Debug v data = Panic.
Proof.
  unfold chacha_encrypt. assert (H64 : (0 < 64)%nat) by lia.
  revert n v. induction data as [|data Hd IH] using (chunks_ind 64 H64); intros n v H Hn.
  - destruct H. change (blocks64 (length (@nil byte))) with 0 in Hn. lia.
  - assert (Hlen : (0 < length data)%nat) by (destruct data; [contradiction|cbn; lia]).
    rewrite blocks64_step in Hn by exact Hlen.
    rewrite chunks_cons by assumption. cbn [chacha_chunks].
    destruct (Z.eq_dec n (2 ^ 32 - 1)) as [->|N].
    + destruct (chacha_next_last key nonce v H) as (-> & _). reflexivity.
    + destruct (chacha_next_ok Debug key nonce n v H) as (v1 & -> & H1); [destruct H; lia|]. cbn [rbind].
      rewrite (IH (n + 1) v1 H1); [reflexivity|]. rewrite skipn_length. lia.
Qed.

Lemma chacha20_encrypt_length key n nonce data : length (chacha20_encrypt key n nonce data) = length data.
Proof. unfold chacha20_encrypt. rewrite map_length, seq_length. reflexivity. Qed.

Lemma chacha20_encrypt_nth key n nonce data i : (i < length data)%nat ->
  nth i (chacha20_encrypt key n nonce data) x00 = bxor (nth i data x00) (keystream key nonce n i).
Proof.
  intros Hi. unfold chacha20_encrypt.
  rewrite (nth_indep _ x00 (bxor (nth 0 data x00) (keystream key nonce n 0))) by (rewrite map_length, seq_length; exact Hi).
  rewrite (map_nth (fun i => bxor (nth i data x00) (keystream key nonce n i))), seq_nth by exact Hi. reflexivity.
Qed.

Lemma chacha20_encrypt_involutive key n nonce data :
  chacha20_encrypt key n nonce (chacha20_encrypt key n nonce data) = data.
Proof.
  apply (list_eq_nth x00); rewrite !chacha20_encrypt_length; [reflexivity|].
  intros i Hi. rewrite !chacha20_encrypt_nth by (rewrite ?chacha20_encrypt_length; exact Hi).
  apply bxor_cancel_r.
Qed.
