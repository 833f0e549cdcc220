(** [divide_by_2], [to_bytes], [from_bytes] of src/crypto/p256.rs. *)
From Verif Require Export P_Mult.
From Coq Require Import ZifyBool ZifyNat ZifyN.

(** ** divide_by_2 *)
Lemma land_1 x : Z.land x 1 = x mod 2.
Proof. change 1 with (Z.ones 1). rewrite Z.land_ones by lia. reflexivity. Qed.
Lemma half_limb x y : word x -> word y -> exists h o o',
  Z.lor (wshr x 1) (wshl (Z.land y 1) 31) = h /\ x = 2 * (h - 2 ^ 31 * o') + o /\ word h /\ 0 <= o <= 1 /\
  x mod 2 = o /\ y mod 2 = o' /\ 0 <= o' <= 1.
Proof.
  intros Hx Hy. exists (x / 2 + 2 ^ 31 * (y mod 2)), (x mod 2), (y mod 2).
  pose proof (Z.div_mod x 2 ltac:(lia)). pose proof (Z.mod_pos_bound x 2 ltac:(lia)). pose proof (Z.mod_pos_bound y 2 ltac:(lia)).
  split; [|lia].
  unfold wshr, wshl, as_u32. rewrite land_1, Z.shiftr_div_pow2, Z.shiftl_mul_pow2 by lia. change (2 ^ 1) with 2.
  rewrite Z.mod_small by lia. rewrite Z.lor_comm, lor_high_low by lia. lia.
Qed.
Lemma half_top x c : word x -> 0 <= c <= 1 -> exists h o,
  Z.lor (wshr x 1) (wshl c 31) = h /\ x = 2 * (h - 2 ^ 31 * c) + o /\ word h /\ 0 <= o <= 1 /\ x mod 2 = o.
Proof.
  intros Hx Hc. exists (x / 2 + 2 ^ 31 * c), (x mod 2).
  pose proof (Z.div_mod x 2 ltac:(lia)). pose proof (Z.mod_pos_bound x 2 ltac:(lia)).
  split; [|lia].
  unfold wshr, wshl, as_u32. rewrite Z.shiftr_div_pow2, Z.shiftl_mul_pow2 by lia. change (2 ^ 1) with 2.
  rewrite Z.mod_small by lia. rewrite Z.lor_comm, lor_high_low by lia. lia.
Qed.
Definition halved (a : int256) (c : Z) : int256 :=
  upd 7 (Z.lor (wshr (at_ a 7) 1) (wshl c 31)) (fold_left (half_step a) (seq 0 7) ZERO).
Lemma halved_spec a c : int256_ok a -> 0 <= c <= 1 ->
  int256_ok (halved a c) /\ limbs_val a + 2 ^ 256 * c = 2 * limbs_val (halved a c) + at_ a 0 mod 2.
Proof.
  intros Ha Hc. destruct (int256_cases a Ha) as (a0 & a1 & a2 & a3 & a4 & a5 & a6 & a7 & -> & A0 & A1 & A2 & A3 & A4 & A5 & A6 & A7).
  unfold halved. cbn [seq fold_left half_step upd ZERO at_ nth Nat.add].
  destruct (half_limb a0 a1 A0 A1) as (h0 & o0 & p0 & -> & E0 & H0 & O0 & M0 & N0 & Q0).
  destruct (half_limb a1 a2 A1 A2) as (h1 & o1 & p1 & -> & E1 & H1 & O1 & M1 & N1 & Q1).
  destruct (half_limb a2 a3 A2 A3) as (h2 & o2 & p2 & -> & E2 & H2 & O2 & M2 & N2 & Q2).
  destruct (half_limb a3 a4 A3 A4) as (h3 & o3 & p3 & -> & E3 & H3 & O3 & M3 & N3 & Q3).
  destruct (half_limb a4 a5 A4 A5) as (h4 & o4 & p4 & -> & E4 & H4 & O4 & M4 & N4 & Q4).
  destruct (half_limb a5 a6 A5 A6) as (h5 & o5 & p5 & -> & E5 & H5 & O5 & M5 & N5 & Q5).
  destruct (half_limb a6 a7 A6 A7) as (h6 & o6 & p6 & -> & E6 & H6 & O6 & M6 & N6 & Q6).
  destruct (half_top a7 c A7 Hc) as (h7 & o7 & -> & E7 & H7 & O7 & M7).
  split; [apply int256_intro; assumption|]. rewrite M0. cbn [limbs_val].
  assert (p0 = o1) by congruence. assert (p1 = o2) by congruence. assert (p2 = o3) by congruence.
  assert (p3 = o4) by congruence. assert (p4 = o5) by congruence. assert (p5 = o6) by congruence. assert (p6 = o7) by congruence.
  clear - E0 E1 E2 E3 E4 E5 E6 E7 H H8 H9 H10 H11 H12 H13. lia.
Qed.
Lemma at0_parity a : int256_ok a -> at_ a 0 mod 2 = limbs_val a mod 2.
Proof.
  intros Ha. destruct (int256_cases a Ha) as (a0 & a1 & a2 & a3 & a4 & a5 & a6 & a7 & -> & _).
  unfold at_. cbn [nth limbs_val]. set (r := a1 + _).
  replace (a0 + 2 ^ 32 * r) with (a0 + (2 ^ 31 * r) * 2) by lia. rewrite Z.mod_add by lia. reflexivity.
Qed.
Lemma divide_by_2_halved a : divide_by_2 a =
  let '(s, c) := add_no_reduce a P256 in ichoose (Z.land (at_ a 0) 1) (halved a 0) (halved s c).
Proof.
  unfold divide_by_2, halved.
  change (wshl 0 31) with 0. rewrite Z.lor_0_r.
  destruct (add_no_reduce a P256) as [s c]. reflexivity.
Qed.
Lemma divide_by_2_spec a : reduced a ->
  reduced (divide_by_2 a) /\ (2 * limbs_val (divide_by_2 a)) mod p256 = limbs_val a.
Proof.
  intros [Ha Ra]. rewrite divide_by_2_halved.
  destruct (add_no_reduce_spec a P256 Ha P256_ok) as (s & c & E & Hs & Hc & V). rewrite E. rewrite P256_val in V.
  pose proof (limbs_val_range a Ha) as R0. pose proof p256_bounds as Bp.
  destruct (halved_spec a 0 Ha ltac:(lia)) as [H1 V1]. destruct (halved_spec s c Hs Hc) as [H2 V2].
  rewrite at0_parity in V1, V2 by assumption. rewrite land_1, at0_parity by assumption.
  pose proof (Z.mod_pos_bound (limbs_val a) 2 ltac:(lia)) as Hm.
  assert (Podd : p256 = 2 * (p256 / 2) + 1) by (rewrite p256_lit; reflexivity).
  assert (C : limbs_val a mod 2 = 0 \/ limbs_val a mod 2 = 1) by lia.
  destruct C as [C|C]; rewrite C in *.
  - rewrite ichoose_0 by assumption. split; [split; [assumption|lia]|]. rewrite Z.mod_small; lia.
  - rewrite ichoose_1 by assumption.
    assert (S0 : limbs_val s mod 2 = 0).
    { pose proof (Z.mod_pos_bound (limbs_val s) 2 ltac:(lia)).
      pose proof (Z.div_mod (limbs_val a) 2 ltac:(lia)). pose proof (Z.div_mod (limbs_val s) 2 ltac:(lia)). lia. }
    rewrite S0 in V2. split; [split; [assumption|lia]|].
    symmetry. apply Z.mod_unique_pos with 1; lia.
Qed.

(** ** bytes *)
Lemma be_val_app a b : be_val (a ++ b) = be_val a * 256 ^ zlen b + be_val b.
Proof.
  induction a as [|x a IH]; [reflexivity|].
  cbn [app]. rewrite !be_val_cons, IH. unfold zlen. rewrite app_length, Nat2Z.inj_add, Z.pow_add_r by lia. ring.
Qed.
Lemma to_w8_shr x n : 0 <= n -> to_w8 (wshr x n) = z2b (x / 2 ^ n).
Proof.
  intros H. unfold to_w8, wshr. change (2 ^ 8 - 1) with (Z.ones 8). rewrite Z.land_ones, Z.shiftr_div_pow2 by lia.
  apply z2b_mod.
Qed.
Lemma to_bytes_words a0 a1 a2 a3 a4 a5 a6 a7 :
  to_bytes [a0; a1; a2; a3; a4; a5; a6; a7] =
  be 4 a7 ++ be 4 a6 ++ be 4 a5 ++ be 4 a4 ++ be 4 a3 ++ be 4 a2 ++ be 4 a1 ++ be 4 a0.
Proof.
  unfold to_bytes.
  cbn [list_prod seq map app fold_left zeros repeat upd at_ nth Nat.mul Nat.add Nat.sub be].
  rewrite !to_w8_shr by lia. reflexivity.
Qed.
Lemma to_bytes_length a : int256_ok a -> length (to_bytes a) = 32%nat.
Proof. intros Ha. destruct (int256_cases a Ha) as (a0 & a1 & a2 & a3 & a4 & a5 & a6 & a7 & -> & _). rewrite to_bytes_words. reflexivity. Qed.
Lemma to_bytes_val a : int256_ok a -> be_val (to_bytes a) = limbs_val a.
Proof.
  intros Ha. destruct (int256_cases a Ha) as (a0 & a1 & a2 & a3 & a4 & a5 & a6 & a7 & -> & A).
  rewrite to_bytes_words, !be_val_app, !be_val_be. unfold zlen. rewrite !app_length, !be_length.
  change (256 ^ Z.of_nat 4) with (2 ^ 32). rewrite !Z.mod_small by tauto.
  cbn [Nat.add Z.of_nat Pos.of_succ_nat Pos.succ limbs_val].
  repeat match goal with |- context [256 ^ Zpos ?p] => let e := constr:(256 ^ Zpos p) in let v := eval vm_compute in e in change e with v end.
  change (2 ^ 32) with 4294967296. ring.
Qed.
Lemma to_bytes_spec a : int256_ok a -> to_bytes a = be 32 (limbs_val a).
Proof.
  intros Ha. rewrite <- (be_be_val (to_bytes a)), to_bytes_length, to_bytes_val by assumption. reflexivity.
Qed.

Lemma bytes_word b0 b1 b2 b3 :
  Z.lor (Z.lor (Z.lor (Z.lor 0 (wshl (b2z b0) 24)) (wshl (b2z b1) 16)) (wshl (b2z b2) 8)) (wshl (b2z b3) 0) =
  be_val [b0; b1; b2; b3].
Proof.
  unfold wshl, as_u32. rewrite !Z.shiftl_mul_pow2 by lia.
  pose proof (b2z_range b0). pose proof (b2z_range b1). pose proof (b2z_range b2). pose proof (b2z_range b3).
  rewrite !Z.mod_small by lia. rewrite Z.lor_0_l. change (2 ^ 0) with 1. rewrite Z.mul_1_r.
  rewrite lor_high_low by lia.
  replace (b2z b0 * 2 ^ 24 + b2z b1 * 2 ^ 16) with ((b2z b0 * 2 ^ 8 + b2z b1) * 2 ^ 16) by lia.
  rewrite lor_high_low by lia.
  replace ((b2z b0 * 2 ^ 8 + b2z b1) * 2 ^ 16 + b2z b2 * 2 ^ 8) with (((b2z b0 * 2 ^ 8 + b2z b1) * 2 ^ 8 + b2z b2) * 2 ^ 8) by lia.
  rewrite lor_high_low by lia. unfold be_val. cbn [be_val_acc]. lia.
Qed.
Lemma from_bytes_some b : length b = 32%nat -> exists a, from_bytes b = Some a /\ int256_ok a /\ limbs_val a = be_val b.
Proof.
  intros L. unfold from_bytes. unfold zlen. rewrite L. change (negb (Z.of_nat 32 =? 32)) with false. cbv iota.
  do 32 (destruct b as [|? b]; [discriminate L|]). destruct b; [|discriminate L]. clear L.
  cbn [seq fold_left upd ZERO nth Nat.mul Nat.add Nat.sub Z.of_nat Pos.of_succ_nat Pos.succ]. rewrite !bytes_word.
  eexists. split; [reflexivity|].
  split.
  - apply int256_intro; match goal with |- word (be_val ?l) => pose proof (be_val_range l) as H; exact H end.
  - cbn [limbs_val]. unfold be_val. cbn [be_val_acc]. ring.
Qed.
Lemma from_bytes_none b : length b <> 32%nat -> from_bytes b = None.
Proof. intros L. unfold from_bytes. replace (negb (zlen b =? 32)) with true; [reflexivity|]. unfold zlen. lia. Qed.
Lemma from_to_bytes a : int256_ok a -> from_bytes (to_bytes a) = Some a.
Proof.
  intros Ha. destruct (from_bytes_some (to_bytes a) (to_bytes_length a Ha)) as (b & E & Hb & V).
  rewrite E. f_equal. apply int256_inj; try assumption. rewrite V. apply to_bytes_val. assumption.
Qed.
Lemma to_from_bytes b a : from_bytes b = Some a -> to_bytes a = b.
Proof.
  intros E. destruct (Nat.eq_dec (length b) 32) as [L|L]; [|rewrite from_bytes_none in E by assumption; discriminate].
  destruct (from_bytes_some b L) as (a' & E' & Ha & V). rewrite E in E'. injection E' as <-.
  rewrite to_bytes_spec, V by assumption. rewrite <- L. apply be_be_val.
Qed.
