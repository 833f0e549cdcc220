(** Counting random tapes. *)
From Verif Require Import Spec_Dist P_Util P_Ecdhe.
From Coq Require Import ZifyBool ZifyNat ZifyN.
Local Open Scope list_scope.
Local Open Scope Z_scope.

Lemma size_most {A} (S : A -> Prop) n : has_size S n -> at_most S n.
Proof. intros (f & g & H & _). exists f. split; [intros a Ha; apply H, Ha|]. intros a b Ha Hb E. rewrite <- (proj2 (H a Ha)), <- (proj2 (H b Hb)), E. reflexivity. Qed.
Lemma size_least {A} (S : A -> Prop) n : has_size S n -> at_least S n.
Proof. intros (f & g & _ & H). exists g. split; [intros i Hi; apply H, Hi|]. intros i j Hi Hj E. rewrite <- (proj2 (H i Hi)), <- (proj2 (H j Hj)), E. reflexivity. Qed.
Lemma size_ext {A} (S T : A -> Prop) n : (forall a, S a <-> T a) -> has_size S n -> has_size T n.
Proof.
  intros E (f & g & H & K). exists f, g. split; [intros a Ha; apply H, E, Ha|]. intros i Hi. destruct (K i Hi). split; [apply E|]; assumption.
Qed.

Lemma spare_pos : 0 < spare. Proof. reflexivity. Qed.
Lemma spare_eq : spare = 2 ^ 256 - p256. Proof. reflexivity. Qed.
Lemma p_pos : 0 < p256 < 2 ^ 256. Proof. split; reflexivity. Qed.
Lemma group_val b : length b = 32%nat -> 0 <= le_val b < 2 ^ 256 /\ le 32 (le_val b) = b.
Proof.
  intros L. split; [|rewrite <- L; apply le_le_val]. pose proof (le_val_range b) as R. unfold zlen in R. rewrite L in R. exact R.
Qed.
Lemma val_group x : 0 <= x < 2 ^ 256 -> length (le 32 x) = 32%nat /\ le_val (le 32 x) = x.
Proof. intros R. split; [apply le_length|]. rewrite le_val_le. apply Z.mod_small. exact R. Qed.
#[local] Opaque p256 spare Z.pow.

(** rejected groups in front of a tape *)
Lemma prefix_size (T : bytes -> Prop) n : 0 <= n -> has_size T n ->
  has_size (fun t => exists b r, t = b ++ r /\ length b = 32%nat /\ p256 <= le_val b /\ T r) (spare * n).
Proof.
  intros Hn (f & g & H & K). pose proof spare_pos as SP. pose proof p_pos as PP.
  exists (fun t => (le_val (firstn 32 t) - p256) + spare * f (skipn 32 t)), (fun i => le 32 (p256 + i mod spare) ++ g (i / spare)). split.
  - intros t (b & r & -> & L & B & Hr). rewrite firstn_app, skipn_app, L, Nat.sub_diag, firstn_O, skipn_O, app_nil_r, firstn_all2, skipn_all2 by lia. cbn [app].
    destruct (H r Hr) as [R1 R2]. destruct (group_val b L) as [V1 V2].
    assert (Q : 0 <= le_val b - p256 < spare). { pose proof spare_eq; lia. }
    split; [nia|]. rewrite (Z.mul_comm spare), Z.mod_add, Z.div_add, Z.mod_small, Z.div_small by lia.
    rewrite Z.add_0_l. replace (p256 + (le_val b - p256)) with (le_val b) by lia. rewrite V2, R2. reflexivity.
  - intros i Hi. pose proof (Z.mod_pos_bound i spare SP) as MB. assert (DB : 0 <= i / spare < n). { split; [apply Z.div_pos; lia|apply Z.div_lt_upper_bound; lia]. }
    destruct (K _ DB) as [K1 K2]. assert (R : 0 <= p256 + i mod spare < 2 ^ 256). { pose proof spare_eq; lia. }
    destruct (val_group _ R) as [L V]. split.
    + exists (le 32 (p256 + i mod spare)), (g (i / spare)). split; [reflexivity|]. split; [exact L|]. split; [rewrite V; lia|exact K1].
    + rewrite firstn_app, skipn_app, L, Nat.sub_diag, firstn_O, skipn_O, app_nil_r, firstn_all2, skipn_all2 by lia. cbn [app].
      rewrite V, K2. pose proof (Z.div_mod i spare). lia.
Qed.

Lemma draw_app b r k : length b = 32%nat -> draw (b ++ r) (S k) = draw r k.
Proof. intros L. unfold draw. rewrite skipn_app, skipn_all2, L by lia. cbn [app]. replace (32 * S k - 32)%nat with (32 * k)%nat by lia. reflexivity. Qed.
Lemma draw_zero b r : length b = 32%nat -> draw (b ++ r) 0 = le_val b.
Proof. intros L. unfold draw. rewrite Nat.mul_0_r. cbn [skipn]. rewrite firstn_app, L, Nat.sub_diag, firstn_O, app_nil_r, firstn_all2 by lia. reflexivity. Qed.
Lemma accepted_cons b r k : length b = 32%nat -> first_accepted (b ++ r) (S k) <-> p256 <= le_val b /\ first_accepted r k.
Proof.
  intros L. unfold first_accepted. rewrite draw_app, app_length, L by exact L. split.
  - intros (H1 & H2 & H3). split; [rewrite <- (draw_zero b r L); apply H3; lia|]. split; [lia|]. split; [exact H2|].
    intros j Hj. rewrite <- (draw_app b r j L). apply H3. lia.
  - intros (H0 & H1 & H2 & H3). split; [lia|]. split; [exact H2|]. intros [|j] Hj; [rewrite draw_zero by exact L; exact H0|]. rewrite draw_app by exact L. apply H3. lia.
Qed.
Definition yields' (k : nat) (x : Z) (t : bytes) : Prop := length t = (32 * S k)%nat /\ first_accepted t k /\ draw t k = x.
Lemma yields_iff m k x t : yields m k x t <-> yields' k x t.
Proof.
  split.
  - intros (L & v & E & V). split; [exact L|]. destruct (random_inv m t v [] E) as (j & A & G & _ & D).
    assert (j = k) as ->. { destruct A as (A & _). apply (f_equal (@length byte)) in G. rewrite skipn_length in G. cbn [length] in G. rewrite L in *. lia. }
    split; [exact A|]. congruence.
  - intros (L & A & D). split; [exact L|]. destruct (random_first m t k A) as (v & E & _ & V). exists v. split; [|congruence].
    rewrite E, skipn_all2 by lia. reflexivity.
Qed.
Lemma yields_step k x t : (exists b r, t = b ++ r /\ length b = 32%nat /\ p256 <= le_val b /\ yields' k x r) <-> yields' (S k) x t.
Proof.
  split.
  - intros (b & r & -> & L & B & Lr & A & D). split; [rewrite app_length; lia|]. split; [apply accepted_cons; [exact L|split; assumption]|]. rewrite draw_app; assumption.
  - intros (L & A & D). exists (firstn 32 t), (skipn 32 t). pose proof (firstn_skipn 32 t) as E.
    assert (L1 : length (firstn 32 t) = 32%nat) by (rewrite firstn_length; lia). rewrite <- E in A, D. apply (accepted_cons _ _ _ L1) in A. rewrite (draw_app _ _ _ L1) in D.
    split; [symmetry; exact E|]. split; [exact L1|]. split; [apply A|]. split; [rewrite skipn_length; lia|]. split; [apply A|exact D].
Qed.
Lemma yields_size' x : 0 <= x < p256 -> forall k, has_size (yields' k x) (spare ^ Z.of_nat k).
Proof.
  intros Hx. pose proof p_pos as PP. induction k as [|k IH].
  - change (spare ^ Z.of_nat 0) with 1. exists (fun _ => 0), (fun _ => le 32 x). destruct (val_group x) as [L V]; [lia|]. split.
    + intros t (Lt & A & D). split; [lia|]. rewrite Nat.mul_1_r in Lt. rewrite <- D. rewrite <- (app_nil_r t), (draw_zero t [] Lt) at 1. apply (group_val t Lt).
    + intros i Hi. split; [|lia]. assert (D : draw (le 32 x) 0 = x) by (rewrite <- (app_nil_r (le 32 x)), draw_zero by exact L; exact V).
      split; [rewrite L; reflexivity|]. split; [|exact D]. split; [rewrite L; lia|]. split; [rewrite D; lia|]. intros j Hj. lia.
  - rewrite Nat2Z.inj_succ, Z.pow_succ_r by lia. eapply size_ext; [apply yields_step|]. apply prefix_size; [|exact IH].
    apply Z.pow_nonneg. pose proof spare_pos. lia.
Qed.
Lemma yields_size m k x : 0 <= x < p256 -> has_size (yields m k x) (spare ^ Z.of_nat k).
Proof. intros Hx. eapply size_ext; [intros t; symmetry; apply yields_iff|]. apply yields_size', Hx. Qed.
Lemma yields_none m k x : ~ 0 <= x < p256 -> forall t, ~ yields m k x t.
Proof.
  intros Hx t Y. apply yields_iff in Y. destruct Y as (L & (_ & B & _) & D). apply Hx. rewrite <- D. split; [|exact B]. unfold draw. apply le_val_range.
Qed.

Definition barren (k : nat) (t : bytes) : Prop := length t = (32 * k)%nat /\ forall j, (j < k)%nat -> p256 <= draw t j.
Lemma fruitless_iff m k t : fruitless m k t <-> barren k t.
Proof.
  unfold fruitless, barren. split; intros [L H]; (split; [exact L|]).
  - assert (N : ~ enough_randomness t). { intros [j A]. destruct (random_first m t j A) as (v & E & _). rewrite E in H. discriminate. }
    induction j as [j IH] using (well_founded_induction lt_wf). intros Hj. destruct (Z_lt_le_dec (draw t j) p256) as [D|D]; [|exact D].
    exfalso. apply N. exists j. split; [lia|]. split; [exact D|]. intros i Hi. apply IH; lia.
  - destruct (random_none m t) as [g' E]; [|rewrite E; reflexivity]. intros (j & A & B & _). assert (j < k)%nat as J by lia. specialize (H j J). lia.
Qed.
Lemma barren_step k t : (exists b r, t = b ++ r /\ length b = 32%nat /\ p256 <= le_val b /\ barren k r) <-> barren (S k) t.
Proof.
  split.
  - intros (b & r & -> & L & B & Lr & D). split; [rewrite app_length; lia|]. intros [|j] Hj; [rewrite draw_zero by exact L; exact B|]. rewrite draw_app by exact L. apply D. lia.
  - intros (L & D). exists (firstn 32 t), (skipn 32 t). pose proof (firstn_skipn 32 t) as E.
    assert (L1 : length (firstn 32 t) = 32%nat) by (rewrite firstn_length; lia).
    split; [symmetry; exact E|]. split; [exact L1|]. split; [rewrite <- (draw_zero _ (skipn 32 t) L1), E; apply D; lia|]. split; [rewrite skipn_length; lia|].
    intros j Hj. rewrite <- (draw_app _ (skipn 32 t) j L1), E. apply D. lia.
Qed.
Lemma fruitless_size m k : has_size (fruitless m k) (spare ^ Z.of_nat k).
Proof.
  eapply size_ext; [intros t; symmetry; apply fruitless_iff|]. induction k as [|k IH].
  - change (spare ^ Z.of_nat 0) with 1. exists (fun _ => 0), (fun _ => []). split.
    + intros t [L _]. split; [lia|]. destruct t; [reflexivity|cbn in L; lia].
    + intros i Hi. split; [split; [reflexivity|intros j Hj; lia]|lia].
  - rewrite Nat2Z.inj_succ, Z.pow_succ_r by lia. eapply size_ext; [apply barren_step|]. apply prefix_size; [|exact IH].
    apply Z.pow_nonneg. pose proof spare_pos. lia.
Qed.

(** ** The used bits *)
Fixpoint usedn (n : nat) (x : Z) : Z := match n with O => 0 | S n => x mod 256 + 256 * usedn n (x / 2 ^ 32) end.
Fixpoint unused (n : nat) (x : Z) : Z := match n with O => x | S n => x / 256 mod 2 ^ 24 + 2 ^ 24 * unused n (x / 2 ^ 32) end.
Fixpoint join (n : nat) (u r : Z) : Z := match n with O => r | S n => u mod 256 + 256 * (r mod 2 ^ 24) + 2 ^ 32 * join n (u / 256) (r / 2 ^ 24) end.
#[local] Transparent Z.pow.
Lemma join_split n : forall x, join n (usedn n x) (unused n x) = x.
Proof.
  induction n as [|n IH]; intros x; cbn [usedn unused join]; [reflexivity|].
  pose proof (Z.mod_pos_bound x 256 eq_refl) as B1. pose proof (Z.mod_pos_bound (x / 256) (2 ^ 24) eq_refl) as B2.
  rewrite !(Z.mul_comm 256 (usedn _ _)), !(Z.mul_comm (2 ^ 24) (unused _ _)), !Z.mod_add, !Z.div_add by discriminate.
  rewrite !Z.mod_mod, !(Z.div_small (_ mod _)) by (discriminate || assumption). rewrite !Z.add_0_l, IH.
  pose proof (Z.div_mod x 256 ltac:(discriminate)) as D1. pose proof (Z.div_mod (x / 256) (2 ^ 24) ltac:(discriminate)) as D2.
  change (2 ^ 32) with (256 * 2 ^ 24). rewrite <- Z.div_div by (discriminate || reflexivity).
  revert D1 D2. generalize (x mod 256) ((x / 256) mod 2 ^ 24) (x / 256 / 2 ^ 24) (x / 256). clear. intros. change (2 ^ 24) with 16777216 in *. lia.
Qed.
Lemma split_join n : forall u r, 0 <= u < 256 ^ Z.of_nat n -> usedn n (join n u r) = u /\ unused n (join n u r) = r.
Proof.
  induction n as [|n IH]; intros u r Hu; cbn [usedn unused join]; [change (256 ^ Z.of_nat 0) with 1 in Hu; split; [lia|reflexivity]|].
  assert (Hu' : 0 <= u / 256 < 256 ^ Z.of_nat n).
  { rewrite Nat2Z.inj_succ, Z.pow_succ_r in Hu by lia. split; [apply Z.div_pos; lia|apply Z.div_lt_upper_bound; lia]. }
  destruct (IH (u / 256) (r / 2 ^ 24) Hu') as [I1 I2]. clear IH.
  pose proof (Z.mod_pos_bound u 256 eq_refl) as B1. pose proof (Z.mod_pos_bound r (2 ^ 24) eq_refl) as B2.
  set (j := join n (u / 256) (r / 2 ^ 24)) in *.
  assert (E1 : (u mod 256 + 256 * (r mod 2 ^ 24) + 2 ^ 32 * j) mod 256 = u mod 256).
  { change (2 ^ 32) with (256 * 2 ^ 24). rewrite <- Z.mul_assoc, <- Z.add_assoc, <- Z.mul_add_distr_l, (Z.mul_comm 256), Z.mod_add by discriminate. apply Z.mod_mod. discriminate. }
  assert (E2 : (u mod 256 + 256 * (r mod 2 ^ 24) + 2 ^ 32 * j) / 256 = r mod 2 ^ 24 + 2 ^ 24 * j).
  { change (2 ^ 32) with (256 * 2 ^ 24). rewrite <- Z.mul_assoc, <- Z.add_assoc, <- Z.mul_add_distr_l, (Z.mul_comm 256), Z.div_add by discriminate. rewrite Z.div_small by exact B1. lia. }
  assert (E3 : (u mod 256 + 256 * (r mod 2 ^ 24) + 2 ^ 32 * j) / 2 ^ 32 = j).
  { change (2 ^ 32) with (256 * 2 ^ 24) at 2. rewrite <- Z.div_div by (discriminate || reflexivity). rewrite E2, (Z.mul_comm (2 ^ 24)), Z.div_add by discriminate. rewrite Z.div_small by exact B2. lia. }
  rewrite E1, E2, E3, I1, I2. split; [pose proof (Z.div_mod u 256); lia|].
  rewrite (Z.mul_comm (2 ^ 24) j), Z.mod_add, Z.mod_mod by discriminate. pose proof (Z.div_mod r (2 ^ 24) ltac:(discriminate)). lia.
Qed.
Lemma usedn_7 x : usedn 7 x = used_scalar x.
Proof.
  unfold used_scalar. cbn [usedn]. rewrite !Z.div_div by (discriminate || reflexivity).
  change (2 ^ 32 * 2 ^ 32) with (2 ^ 64). change (2 ^ 32 * 2 ^ 64) with (2 ^ 96). change (2 ^ 32 * 2 ^ 96) with (2 ^ 128).
  change (2 ^ 64 * 2 ^ 32) with (2 ^ 96). change (2 ^ 96 * 2 ^ 32) with (2 ^ 128). change (2 ^ 128 * 2 ^ 32) with (2 ^ 160). change (2 ^ 160 * 2 ^ 32) with (2 ^ 192).
  change (256 ^ 2) with (256 * 256). change (256 ^ 3) with (256 * (256 * 256)). change (256 ^ 4) with (256 * (256 * (256 * 256))).
  change (256 ^ 5) with (256 * (256 * (256 * (256 * 256)))). change (256 ^ 6) with (256 * (256 * (256 * (256 * (256 * 256))))).
  ring.
Qed.
Lemma unused_range n : forall x k, 0 <= k -> 0 <= x < 2 ^ (32 * Z.of_nat n + k) -> 0 <= unused n x < 2 ^ (24 * Z.of_nat n + k).
Proof.
  induction n as [|n IH]; intros x k Hk Hx; cbn [unused]; [exact Hx|].
  assert (E : 2 ^ (32 * Z.of_nat (S n) + k) = 2 ^ 32 * 2 ^ (32 * Z.of_nat n + k)) by (rewrite <- Z.pow_add_r by lia; f_equal; lia).
  assert (E' : 2 ^ (24 * Z.of_nat (S n) + k) = 2 ^ 24 * 2 ^ (24 * Z.of_nat n + k)) by (rewrite <- Z.pow_add_r by lia; f_equal; lia).
  rewrite E in Hx. rewrite E'.
  destruct (IH (x / 2 ^ 32) k Hk) as [I1 I2]; [split; [apply Z.div_pos; lia|apply Z.div_lt_upper_bound; lia]|].
  pose proof (Z.mod_pos_bound (x / 256) (2 ^ 24) eq_refl) as B. revert I1 I2 B. generalize (2 ^ (24 * Z.of_nat n + k)) (unused n (x / 2 ^ 32)) ((x / 256) mod 2 ^ 24). clear. intros. change (2 ^ 24) with 16777216 in *. lia.
Qed.
Lemma join_range n : forall u r b, 0 <= r < 2 ^ (24 * Z.of_nat n) * b -> 0 <= join n u r < 2 ^ (32 * Z.of_nat n) * b.
Proof.
  induction n as [|n IH]; intros u r b Hr; cbn [join]; [exact Hr|].
  assert (E : 2 ^ (32 * Z.of_nat (S n)) = 2 ^ 32 * 2 ^ (32 * Z.of_nat n)) by (rewrite <- Z.pow_add_r by lia; f_equal; lia).
  assert (E' : 2 ^ (24 * Z.of_nat (S n)) = 2 ^ 24 * 2 ^ (24 * Z.of_nat n)) by (rewrite <- Z.pow_add_r by lia; f_equal; lia).
  rewrite E' in Hr. rewrite E. rewrite <- Z.mul_assoc in *.
  destruct (IH (u / 256) (r / 2 ^ 24) b) as [I1 I2]; [split; [apply Z.div_pos; lia|apply Z.div_lt_upper_bound; lia]|].
  pose proof (Z.mod_pos_bound u 256 eq_refl) as B1. pose proof (Z.mod_pos_bound r (2 ^ 24) eq_refl) as B2.
  revert I1 I2 B1 B2. generalize (2 ^ (32 * Z.of_nat n) * b) (join n (u / 256) (r / 2 ^ 24)) (u mod 256) (r mod 2 ^ 24). clear. intros. change (2 ^ 24) with 16777216 in *. change (2 ^ 32) with 4294967296. lia.
Qed.
#[local] Transparent p256.
Lemma bits_most u : at_most (with_bits u) (2 ^ 200).
Proof.
  exists (unused 7). split.
  - intros x [Hx _]. apply (unused_range 7 x 32); [lia|]. change (32 * Z.of_nat 7 + 32) with 256. destruct p_pos as [_ P]. lia.
  - intros x y [_ Ux] [_ Uy] E. rewrite <- (join_split 7 x), <- (join_split 7 y), !usedn_7, Ux, Uy, E. reflexivity.
Qed.
Lemma bits_least u : 0 <= u < 2 ^ 56 -> at_least (with_bits u) (2 ^ 200 - 2 ^ 168).
Proof.
  intros Hu. exists (join 7 u). split.
  - intros r Hr. destruct (join_range 7 u r (2 ^ 32 - 1)) as [J1 J2]; [exact Hr|]. split; [split; [exact J1|]|].
    + eapply Z.lt_le_trans; [exact J2|]. vm_compute. discriminate.
    + rewrite <- usedn_7. apply split_join. exact Hu.
  - intros i j _ _ E. rewrite <- (proj2 (split_join 7 u i Hu)), <- (proj2 (split_join 7 u j Hu)), E. reflexivity.
Qed.
