(** Poly1305: the limb arithmetic of the model against RFC 7539 section 2.5. *)
From Verif Require Export M_Poly1305 P_Sha2.
From Coq Require Import ZifyBool ZifyNat ZifyN.

(** ** Bytes and limbs *)
Lemma le_val_app a b : le_val (a ++ b) = le_val a + 256 ^ zlen a * le_val b.
Proof.
  induction a as [|x a IH]; cbn [app le_val].
  - change (zlen (@nil byte)) with 0. lia.
  - rewrite IH, zlen_cons, Z.pow_add_r by (try lia; apply zlen_nonneg). ring.
Qed.

Lemma le_val_skipn i bs : le_val (skipn i bs) = le_val bs / 256 ^ Z.of_nat i.
Proof.
  destruct (Nat.le_gt_cases i (length bs)).
  - rewrite <- (firstn_skipn i bs) at 2. rewrite le_val_app.
    assert (L : zlen (firstn i bs) = Z.of_nat i) by (unfold zlen; rewrite firstn_length; lia).
    rewrite L. pose proof (le_val_range (firstn i bs)) as R. rewrite L in R.
    rewrite Z.mul_comm, Z.div_add by lia. rewrite Z.div_small by lia. lia.
  - rewrite skipn_all2 by lia. cbn [le_val]. symmetry. apply Z.div_small.
    pose proof (le_val_range bs). split; [lia|]. eapply Z.lt_le_trans; [apply H0|].
    apply Z.pow_le_mono_r; unfold zlen; lia.
Qed.
Lemma le_val_firstn i bs : le_val (firstn i bs) = le_val bs mod 256 ^ Z.of_nat i.
Proof.
  destruct (Nat.le_gt_cases i (length bs)).
  - rewrite <- (firstn_skipn i bs) at 2. rewrite le_val_app.
    assert (L : zlen (firstn i bs) = Z.of_nat i) by (unfold zlen; rewrite firstn_length; lia).
    rewrite L. pose proof (le_val_range (firstn i bs)) as R. rewrite L in R.
    rewrite Z.mul_comm, Z_mod_plus_full. rewrite Z.mod_small by lia. reflexivity.
  - rewrite firstn_all2 by lia. symmetry. apply Z.mod_small.
    pose proof (le_val_range bs). split; [lia|]. eapply Z.lt_le_trans; [apply H0|].
    apply Z.pow_le_mono_r; unfold zlen; lia.
Qed.

(** the 26-bit digit of [x] at bit [k] *)
Definition dig (x k : Z) : Z := (x / 2 ^ k) mod 2 ^ 26.

Lemma div_mod_div x a b c : 0 <= a -> 0 <= b -> 0 <= c -> ((x / 2 ^ a) mod 2 ^ (b + c)) / 2 ^ b = (x / 2 ^ (a + b)) mod 2 ^ c.
Proof.
  intros Ha Hb Hc.
  assert (0 < 2 ^ a) by (apply Z.pow_pos_nonneg; lia). assert (0 < 2 ^ b) by (apply Z.pow_pos_nonneg; lia).
  assert (0 < 2 ^ c) by (apply Z.pow_pos_nonneg; lia).
  rewrite (Z.pow_add_r 2 a b), <- Z.div_div by lia. set (y := x / 2 ^ a).
  rewrite Z.pow_add_r by lia. rewrite Z.rem_mul_r by lia.
  rewrite Z.mul_comm, Z.div_add by lia. rewrite (Z.div_small (y mod 2 ^ b)); [reflexivity|].
  apply Z.mod_pos_bound. lia.
Qed.
Lemma mod_mod_pow x a b : 0 <= a <= b -> (x mod 2 ^ b) mod 2 ^ a = x mod 2 ^ a.
Proof.
  intros H. replace (2 ^ b) with (2 ^ a * 2 ^ (b - a)) by (rewrite <- Z.pow_add_r by lia; f_equal; lia).
  rewrite Z.rem_mul_r by (apply Z.pow_nonzero || (apply Z.pow_pos_nonneg); lia).
  rewrite Z.mul_comm, Z_mod_plus_full. apply Z.mod_mod. apply Z.pow_nonzero; lia.
Qed.

Lemma le32_spec bs i : le32 bs i (i + 4) = (le_val bs / 2 ^ (8 * Z.of_nat i)) mod 2 ^ 32.
Proof.
  unfold le32, slice. replace (i + 4 - i)%nat with 4%nat by lia.
  rewrite le_val_firstn, le_val_skipn. change (256 ^ Z.of_nat 4) with (2 ^ 32).
  change 256 with (2 ^ 8). rewrite <- Z.pow_mul_r by lia. reflexivity.
Qed.

(** the five limb reads *)
Lemma limb_read bs i s : 0 <= s <= 6 ->
  (wshr (le32 bs i (i + 4)) s) mod 2 ^ 26 = dig (le_val bs) (8 * Z.of_nat i + s).
Proof.
  intros Hs. unfold wshr, dig. rewrite le32_spec, Z.shiftr_div_pow2 by lia.
  replace 32 with (s + (32 - s)) by lia. rewrite div_mod_div by lia.
  apply mod_mod_pow. lia.
Qed.
Lemma limb_read_top bs : length bs = 16%nat -> wshr (le32 bs 12 16) 8 = le_val bs / 2 ^ 104.
Proof.
  intros L. unfold wshr. change 16%nat with (12 + 4)%nat. rewrite (le32_spec bs 12), Z.shiftr_div_pow2 by lia.
  change (8 * Z.of_nat 12) with 96. change 32 with (8 + 24). rewrite div_mod_div by lia.
  change (96 + 8) with 104. apply Z.mod_small. pose proof (le_val_range bs) as R. unfold zlen in R. rewrite L in R.
  change (256 ^ Z.of_nat 16) with (2 ^ 128) in R. split; [apply Z.div_pos; lia|apply Z.div_lt_upper_bound; lia].
Qed.

(** a number below 2^130 is its five limbs *)
Lemma limbs_sum x : 0 <= x < 2 ^ 130 ->
  x = dig x 0 + 2 ^ 26 * dig x 26 + 2 ^ 52 * dig x 52 + 2 ^ 78 * dig x 78 + 2 ^ 104 * (x / 2 ^ 104).
Proof.
  intros H. unfold dig. rewrite Z.div_1_r.
  replace (x / 2 ^ 52) with (x / 2 ^ 26 / 2 ^ 26) by (rewrite Z.div_div by lia; reflexivity).
  replace (x / 2 ^ 78) with (x / 2 ^ 26 / 2 ^ 26 / 2 ^ 26) by (rewrite !Z.div_div by lia; reflexivity).
  replace (x / 2 ^ 104) with (x / 2 ^ 26 / 2 ^ 26 / 2 ^ 26 / 2 ^ 26) by (rewrite !Z.div_div by lia; reflexivity).
  pose proof (Z.div_mod x (2 ^ 26) ltac:(lia)) as E0. set (a := x / 2 ^ 26) in *.
  pose proof (Z.div_mod a (2 ^ 26) ltac:(lia)) as E1. set (b := a / 2 ^ 26) in *.
  pose proof (Z.div_mod b (2 ^ 26) ltac:(lia)) as E2. set (c := b / 2 ^ 26) in *.
  pose proof (Z.div_mod c (2 ^ 26) ltac:(lia)) as E3. set (d := c / 2 ^ 26) in *. lia.
Qed.

Lemma dig_range x k : 0 <= dig x k < 2 ^ 26.
Proof. unfold dig. apply Z.mod_pos_bound. lia. Qed.

Lemma land26 x : Z.land x 0x3ffffff = x mod 2 ^ 26.
Proof. change 0x3ffffff with (Z.ones 26). apply Z.land_ones. lia. Qed.

(** masking commutes with taking a digit *)
Lemma dig_land x c k : 0 <= k -> dig (Z.land x c) k = Z.land (dig x k) (dig c k).
Proof.
  intros Hk. unfold dig. rewrite <- !Z.shiftr_div_pow2 by lia. rewrite Z.shiftr_land.
  rewrite <- !Z.land_ones by lia.
  apply Z.bits_inj'. intros i Hi. rewrite !Z.land_spec. destruct (Z.testbit (Z.ones 26) i), (Z.testbit (Z.shiftr x k) i), (Z.testbit (Z.shiftr c k) i); reflexivity.
Qed.
Lemma land_mask_dig y c : 0 <= c < 2 ^ 26 -> Z.land y c = Z.land (y mod 2 ^ 26) c.
Proof.
  intros Hc. rewrite <- (Z.mod_small c (2 ^ 26)) at 1 by lia. rewrite <- !Z.land_ones by lia.
  apply Z.bits_inj'. intros i Hi. rewrite !Z.land_spec. destruct (Z.testbit y i), (Z.testbit c i), (Z.testbit (Z.ones 26) i); reflexivity.
Qed.

(** ** State *)
Definition V (h0 h1 h2 h3 h4 : Z) : Z := h0 + 2 ^ 26 * h1 + 2 ^ 52 * h2 + 2 ^ 78 * h3 + 2 ^ 104 * h4.

(** limbs of [r] *)
Definition r_ok (r : list Z) (x : Z) : Prop :=
  exists r0 r1 r2 r3 r4, r = [r0; r1; r2; r3; r4] /\ x = V r0 r1 r2 r3 r4 /\
    0 <= r0 < 2 ^ 26 /\ 0 <= r1 < 2 ^ 26 /\ 0 <= r2 < 2 ^ 26 /\ 0 <= r3 < 2 ^ 26 /\ 0 <= r4 < 2 ^ 20.
(** limbs of the accumulator: congruent to [a], nearly reduced *)
Definition h_ok (h : list Z) (a : Z) : Prop :=
  exists h0 h1 h2 h3 h4, h = [h0; h1; h2; h3; h4] /\ (V h0 h1 h2 h3 h4) mod P1305 = a mod P1305 /\
    0 <= h0 < 2 ^ 26 /\ 0 <= h1 < 2 ^ 26 + 64 /\ 0 <= h2 < 2 ^ 26 /\ 0 <= h3 < 2 ^ 26 /\ 0 <= h4 < 2 ^ 26.

Lemma poly_new_r r s : length r = 16%nat -> r_ok (pr (poly_new r s)) (clamp (le_val r)).
Proof.
  intros L. unfold poly_new. cbn [pr]. set (x := le_val r).
  assert (Hx : 0 <= x < 2 ^ 128).
  { pose proof (le_val_range r) as R. unfold zlen in R. rewrite L in R. exact R. }
  exists (dig (clamp x) 0), (dig (clamp x) 26), (dig (clamp x) 52), (dig (clamp x) 78), (clamp x / 2 ^ 104).
  assert (Hc : 0 <= clamp x < 2 ^ 124).
  { unfold clamp. rewrite Z.land_comm. apply land_range; lia. }
  assert (Htop : clamp x / 2 ^ 104 = dig (clamp x) 104).
  { unfold dig. symmetry. apply Z.mod_small. split; [apply Z.div_pos; lia|apply Z.div_lt_upper_bound; lia]. }
  split; [|split; [apply limbs_sum; lia|]].
  - rewrite Htop. unfold clamp. rewrite !dig_land by lia.
    assert (L0 : le32 r 0 4 mod 2 ^ 26 = dig x 0) by (pose proof (limb_read r 0 0 ltac:(lia)) as E; unfold wshr in E; rewrite Z.shiftr_0_r in E; exact E).
    pose proof (limb_read r 3 2 ltac:(lia)) as L1. pose proof (limb_read r 6 4 ltac:(lia)) as L2.
    pose proof (limb_read r 9 6 ltac:(lia)) as L3. pose proof (limb_read_top r L) as L4.
    assert (L4' : wshr (le32 r 12 16) 8 mod 2 ^ 26 = dig x 104) by (rewrite L4; reflexivity).
    cbn [Nat.add] in *. fold x in L1, L2, L3.
    change (8 * Z.of_nat 3 + 2) with 26 in L1. change (8 * Z.of_nat 6 + 4) with 52 in L2. change (8 * Z.of_nat 9 + 6) with 78 in L3.
    rewrite (land_mask_dig _ 0x3ffffff), (land_mask_dig _ 0x3ffff03), (land_mask_dig _ 0x3ffc0ff), (land_mask_dig _ 0x3f03fff), (land_mask_dig _ 0x00fffff) by lia.
    rewrite L0, L1, L2, L3, L4'. reflexivity.
  - repeat (split; [apply dig_range|]). split; [apply Z.div_pos; lia|apply Z.div_lt_upper_bound; lia].
Qed.

Lemma prod_bound a b A B : 0 <= a <= A -> 0 <= b <= B -> 0 <= a * b <= A * B.
Proof. intros. nia. Qed.

Lemma dot5_ok m a0 b0 a1 b1 a2 b2 a3 b3 a4 b4 A0 B0 A1 B1 A2 B2 A3 B3 A4 B4 :
  0 <= a0 <= A0 -> 0 <= b0 <= B0 -> 0 <= a1 <= A1 -> 0 <= b1 <= B1 -> 0 <= a2 <= A2 -> 0 <= b2 <= B2 ->
  0 <= a3 <= A3 -> 0 <= b3 <= B3 -> 0 <= a4 <= A4 -> 0 <= b4 <= B4 ->
  A0 * B0 + A1 * B1 + A2 * B2 + A3 * B3 + A4 * B4 < 2 ^ 64 ->
  dot5 m a0 b0 a1 b1 a2 b2 a3 b3 a4 b4 = Ok (a0 * b0 + a1 * b1 + a2 * b2 + a3 * b3 + a4 * b4) /\
  0 <= a0 * b0 + a1 * b1 + a2 * b2 + a3 * b3 + a4 * b4 <= A0 * B0 + A1 * B1 + A2 * B2 + A3 * B3 + A4 * B4.
Proof.
  intros. pose proof (prod_bound a0 b0 A0 B0 ltac:(assumption) ltac:(assumption)).
  pose proof (prod_bound a1 b1 A1 B1 ltac:(assumption) ltac:(assumption)).
  pose proof (prod_bound a2 b2 A2 B2 ltac:(assumption) ltac:(assumption)).
  pose proof (prod_bound a3 b3 A3 B3 ltac:(assumption) ltac:(assumption)).
  pose proof (prod_bound a4 b4 A4 B4 ltac:(assumption) ltac:(assumption)).
  split; [|lia]. unfold dot5, mul64, add64.
  repeat (rewrite ck_ok by lia; cbn [rbind]). reflexivity.
Qed.

Lemma as_u32_land26 d : Z.land (as_u32 d) 0x3ffffff = d mod 2 ^ 26.
Proof. rewrite land26. unfold as_u32. apply mod_mod_pow. lia. Qed.

Lemma shiftr26 d : Z.shiftr d 26 = d / 2 ^ 26.
Proof. apply Z.shiftr_div_pow2. lia. Qed.

(** one block: no overflow in either build, and the accumulator moves as the polynomial says *)
Lemma compute_block_ok m p rx a block partial :
  r_ok (pr p) rx -> h_ok (ph p) a -> length block = 16%nat ->
  exists h, compute_block m p block partial = Ok (Poly (pr p) h (ppad p)) /\
            h_ok h (rx * (a + (le_val block + if partial then 0 else 2 ^ 128))).
Proof.
  intros (r0 & r1 & r2 & r3 & r4 & Er & Ex & R0 & R1 & R2 & R3 & R4)
         (h0 & h1 & h2 & h3 & h4 & Eh & Ea & B0 & B1 & B2 & B3 & B4) L.
  unfold compute_block. rewrite Er, Eh. cbn [at_ nth].
  change (at_ [r0; r1; r2; r3; r4] 0) with r0. change (at_ [r0; r1; r2; r3; r4] 1) with r1.
  change (at_ [r0; r1; r2; r3; r4] 2) with r2. change (at_ [r0; r1; r2; r3; r4] 3) with r3.
  change (at_ [r0; r1; r2; r3; r4] 4) with r4.
  change (at_ [h0; h1; h2; h3; h4] 0) with h0. change (at_ [h0; h1; h2; h3; h4] 1) with h1.
  change (at_ [h0; h1; h2; h3; h4] 2) with h2. change (at_ [h0; h1; h2; h3; h4] 3) with h3.
  change (at_ [h0; h1; h2; h3; h4] 4) with h4.
  unfold mul32, add32.
  do 4 (rewrite ck_ok by lia; cbn [rbind]).
  set (x := le_val block).
  assert (Hx : 0 <= x < 2 ^ 128).
  { pose proof (le_val_range block) as R. unfold zlen in R. rewrite L in R. exact R. }
  rewrite !land26.
  assert (L0 : le32 block 0 4 mod 2 ^ 26 = dig x 0)
    by (pose proof (limb_read block 0 0 ltac:(lia)) as E; unfold wshr in E; rewrite Z.shiftr_0_r in E; exact E).
  pose proof (limb_read block 3 2 ltac:(lia)) as L1. pose proof (limb_read block 6 4 ltac:(lia)) as L2.
  pose proof (limb_read block 9 6 ltac:(lia)) as L3. pose proof (limb_read_top block L) as L4.
  cbn [Nat.add] in *. fold x in L1, L2, L3, L4.
  change (8 * Z.of_nat 3 + 2) with 26 in L1. change (8 * Z.of_nat 6 + 4) with 52 in L2. change (8 * Z.of_nat 9 + 6) with 78 in L3.
  rewrite L0, L1, L2, L3, L4.
  set (hb := if partial then 0 else 2 ^ 24).
  assert (Hb : hb = 0 \/ hb = 2 ^ 24) by (unfold hb; destruct partial; auto).
  assert (Et : Z.lor (x / 2 ^ 104) hb = x / 2 ^ 104 + hb).
  { assert (T : 0 <= x / 2 ^ 104 < 2 ^ 24) by (split; [apply Z.div_pos; lia|apply Z.div_lt_upper_bound; lia]).
    destruct Hb as [->| ->]; [rewrite Z.lor_0_r; lia|].
    rewrite Z.lor_comm. change (2 ^ 24) with (1 * 2 ^ 24). rewrite lor_high_low by lia. lia. }
  rewrite Et.
  assert (T : 0 <= x / 2 ^ 104 < 2 ^ 24) by (split; [apply Z.div_pos; lia|apply Z.div_lt_upper_bound; lia]).
  pose proof (limbs_sum x ltac:(lia)) as Sx.
  pose proof (dig_range x 0) as D0. pose proof (dig_range x 26) as D1. pose proof (dig_range x 52) as D2. pose proof (dig_range x 78) as D3.
  set (m0 := dig x 0) in *. set (m1 := dig x 26) in *. set (m2 := dig x 52) in *. set (m3 := dig x 78) in *.
  set (m4 := x / 2 ^ 104) in *.
  do 5 (rewrite ck_ok by lia; cbn [rbind]).
  assert (M0 : 0 <= h0 + m0 <= 2 ^ 27) by lia. assert (M1 : 0 <= h1 + m1 <= 2 ^ 27 + 64) by lia.
  assert (M2 : 0 <= h2 + m2 <= 2 ^ 27) by lia. assert (M3 : 0 <= h3 + m3 <= 2 ^ 27) by lia.
  assert (M4 : 0 <= h4 + (m4 + hb) <= 2 ^ 27) by lia.
  assert (Evx : x + (if partial then 0 else 2 ^ 128) = V m0 m1 m2 m3 (m4 + hb)).
  { unfold V, hb. rewrite Sx at 1. destruct partial; lia. }
  set (k0 := h0 + m0) in *. set (k1 := h1 + m1) in *. set (k2 := h2 + m2) in *. set (k3 := h3 + m3) in *.
  set (k4 := h4 + (m4 + hb)) in *.
  assert (Ek : V k0 k1 k2 k3 k4 = V h0 h1 h2 h3 h4 + (x + (if partial then 0 else 2 ^ 128))).
  { rewrite Evx. unfold V, k0, k1, k2, k3, k4. ring. }
  clearbody k0 k1 k2 k3 k4. clear L0 L1 L2 L3 L4 Sx D0 D1 D2 D3 Et T Evx Hb. clearbody m0 m1 m2 m3 m4 hb.
  assert (S1 : 0 <= r1 * 5 <= 5 * 2 ^ 26) by lia. assert (S2 : 0 <= r2 * 5 <= 5 * 2 ^ 26) by lia.
  assert (S3 : 0 <= r3 * 5 <= 5 * 2 ^ 26) by lia. assert (S4 : 0 <= r4 * 5 <= 5 * 2 ^ 20) by lia.
  assert (R0' : 0 <= r0 <= 2 ^ 26) by lia. assert (R1' : 0 <= r1 <= 2 ^ 26) by lia. assert (R2' : 0 <= r2 <= 2 ^ 26) by lia.
  assert (R3' : 0 <= r3 <= 2 ^ 26) by lia. assert (R4' : 0 <= r4 <= 2 ^ 20) by lia.
  destruct (dot5_ok m _ _ _ _ _ _ _ _ _ _ _ _ _ _ _ _ _ _ _ _ M0 R0' M1 S4 M2 S3 M3 S2 M4 S1 ltac:(lia)) as (-> & Q0). cbn [rbind].
  destruct (dot5_ok m _ _ _ _ _ _ _ _ _ _ _ _ _ _ _ _ _ _ _ _ M0 R1' M1 R0' M2 S4 M3 S3 M4 S2 ltac:(lia)) as (-> & Q1). cbn [rbind].
  destruct (dot5_ok m _ _ _ _ _ _ _ _ _ _ _ _ _ _ _ _ _ _ _ _ M0 R2' M1 R1' M2 R0' M3 S4 M4 S3 ltac:(lia)) as (-> & Q2). cbn [rbind].
  destruct (dot5_ok m _ _ _ _ _ _ _ _ _ _ _ _ _ _ _ _ _ _ _ _ M0 R3' M1 R2' M2 R1' M3 R0' M4 S4 ltac:(lia)) as (-> & Q3). cbn [rbind].
  destruct (dot5_ok m _ _ _ _ _ _ _ _ _ _ _ _ _ _ _ _ _ _ _ _ M0 R4' M1 R3' M2 R2' M3 R1' M4 R0' ltac:(lia)) as (-> & Q4). cbn [rbind].
  set (d0 := k0 * r0 + k1 * (r4 * 5) + k2 * (r3 * 5) + k3 * (r2 * 5) + k4 * (r1 * 5)) in *.
  set (d1 := k0 * r1 + k1 * r0 + k2 * (r4 * 5) + k3 * (r3 * 5) + k4 * (r2 * 5)) in *.
  set (d2 := k0 * r2 + k1 * r1 + k2 * r0 + k3 * (r4 * 5) + k4 * (r3 * 5)) in *.
  set (d3 := k0 * r3 + k1 * r2 + k2 * r1 + k3 * r0 + k4 * (r4 * 5)) in *.
  set (d4 := k0 * r4 + k1 * r3 + k2 * r2 + k3 * r1 + k4 * r0) in *.
  (* the product modulo 2^130 - 5 *)
  assert (EP : exists K, V k0 k1 k2 k3 k4 * rx = V d0 d1 d2 d3 d4 + K * P1305).
  { exists ((k1 * r4 + k2 * r3 + k3 * r2 + k4 * r1) + 2 ^ 26 * (k2 * r4 + k3 * r3 + k4 * r2) +
            2 ^ 52 * (k3 * r4 + k4 * r3) + 2 ^ 78 * (k4 * r4)).
    rewrite Ex. unfold V, P1305, d0, d1, d2, d3, d4. ring. }
  clearbody d0 d1 d2 d3 d4.
  rewrite !as_u32_land26, !shiftr26. unfold add64.
  set (c0 := as_u32 (d0 / 2 ^ 26)).
  pose proof (Z.div_mod d0 (2 ^ 26) ltac:(lia)) as F0. pose proof (Z.mod_pos_bound d0 (2 ^ 26) ltac:(lia)) as G0.
  assert (Ec0 : c0 = d0 / 2 ^ 26) by (apply Z.mod_small; lia). clearbody c0.
  rewrite (ck_ok m 64 (d1 + c0)) by lia. cbn [rbind].
  rewrite !as_u32_land26, !shiftr26.
  set (c1 := as_u32 ((d1 + c0) / 2 ^ 26)).
  pose proof (Z.div_mod (d1 + c0) (2 ^ 26) ltac:(lia)) as F1. pose proof (Z.mod_pos_bound (d1 + c0) (2 ^ 26) ltac:(lia)) as G1.
  assert (Ec1 : c1 = (d1 + c0) / 2 ^ 26) by (apply Z.mod_small; lia). clearbody c1.
  rewrite (ck_ok m 64 (d2 + c1)) by lia. cbn [rbind].
  rewrite !as_u32_land26, !shiftr26.
  set (c2 := as_u32 ((d2 + c1) / 2 ^ 26)).
  pose proof (Z.div_mod (d2 + c1) (2 ^ 26) ltac:(lia)) as F2. pose proof (Z.mod_pos_bound (d2 + c1) (2 ^ 26) ltac:(lia)) as G2.
  assert (Ec2 : c2 = (d2 + c1) / 2 ^ 26) by (apply Z.mod_small; lia). clearbody c2.
  rewrite (ck_ok m 64 (d3 + c2)) by lia. cbn [rbind].
  rewrite !as_u32_land26, !shiftr26.
  set (c3 := as_u32 ((d3 + c2) / 2 ^ 26)).
  pose proof (Z.div_mod (d3 + c2) (2 ^ 26) ltac:(lia)) as F3. pose proof (Z.mod_pos_bound (d3 + c2) (2 ^ 26) ltac:(lia)) as G3.
  assert (Ec3 : c3 = (d3 + c2) / 2 ^ 26) by (apply Z.mod_small; lia). clearbody c3.
  rewrite (ck_ok m 64 (d4 + c3)) by lia. cbn [rbind].
  rewrite !as_u32_land26, !shiftr26.
  set (c4 := as_u32 ((d4 + c3) / 2 ^ 26)).
  pose proof (Z.div_mod (d4 + c3) (2 ^ 26) ltac:(lia)) as F4. pose proof (Z.mod_pos_bound (d4 + c3) (2 ^ 26) ltac:(lia)) as G4.
  assert (Ec4 : c4 = (d4 + c3) / 2 ^ 26) by (apply Z.mod_small; lia). clearbody c4.
  rewrite <- Ec0 in F0. rewrite <- Ec1 in F1. rewrite <- Ec2 in F2. rewrite <- Ec3 in F3. rewrite <- Ec4 in F4.
  set (e0 := d0 mod 2 ^ 26) in *. set (e1 := (d1 + c0) mod 2 ^ 26) in *. set (e2 := (d2 + c1) mod 2 ^ 26) in *.
  set (e3 := (d3 + c2) mod 2 ^ 26) in *. set (e4 := (d4 + c3) mod 2 ^ 26) in *.
  clearbody e0 e1 e2 e3 e4. clear Ec0 Ec1 Ec2 Ec3 Ec4.
  rewrite (ck_ok m 32 (c4 * 5)) by lia. cbn [rbind].
  rewrite (ck_ok m 32 (e0 + c4 * 5)) by lia. cbn [rbind].
  unfold wshr. rewrite shiftr26, land26.
  pose proof (Z.div_mod (e0 + c4 * 5) (2 ^ 26) ltac:(lia)) as F5. pose proof (Z.mod_pos_bound (e0 + c4 * 5) (2 ^ 26) ltac:(lia)) as G5.
  set (c5 := (e0 + c4 * 5) / 2 ^ 26) in *. set (e5 := (e0 + c4 * 5) mod 2 ^ 26) in *. clearbody c5 e5.
  assert (0 <= c5 < 64) by lia.
  rewrite (ck_ok m 32 (e1 + c5)) by lia. cbn [rbind].
  eexists. split; [reflexivity|].
  exists e5, (e1 + c5), e2, e3, e4. split; [reflexivity|]. split.
  2:{ repeat split; lia. }
  assert (EV : V e5 (e1 + c5) e2 e3 e4 = V d0 d1 d2 d3 d4 + (- c4) * P1305).
  { unfold V, P1305. lia. }
  destruct EP as (K & EP).
  rewrite EV, Z_mod_plus_full.
  rewrite <- (Z_mod_plus_full (V d0 d1 d2 d3 d4) K), <- EP, Ek.
  rewrite (Z.mul_comm rx).
  rewrite Zmult_mod, (Zmult_mod (a + _)). f_equal. f_equal.
  rewrite Zplus_mod, Ea, <- Zplus_mod. reflexivity.
Qed.
