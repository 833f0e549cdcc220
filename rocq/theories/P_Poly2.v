(** Poly1305: final reduction, the tag, and the whole [authenticate]. *)
From Verif Require Export P_Poly.
From Coq Require Import ZifyBool ZifyNat ZifyN.

Lemma le_split n k z : le (n + k) z = le n z ++ le k (z / 256 ^ Z.of_nat n).
Proof.
  revert z. induction n as [|n IH]; intros z; cbn [Nat.add le app].
  - rewrite Z.div_1_r. reflexivity.
  - f_equal. rewrite IH. rewrite Z.div_div by lia.
    rewrite Nat2Z.inj_succ, Z.pow_succ_r by lia. reflexivity.
Qed.
Lemma le_mod n k z : (n <= k)%nat -> le n (z mod 256 ^ Z.of_nat k) = le n z.
Proof.
  revert k z. induction n as [|n IH]; intros [|k] z H; cbn [le]; try lia; auto.
  rewrite Nat2Z.inj_succ, Z.pow_succ_r by lia. rewrite Z.rem_mul_r by lia.
  f_equal.
  - apply z2b_eq_mod. rewrite Z.mul_comm, Z_mod_plus_full. apply Z.mod_mod. lia.
  - rewrite Z.mul_comm, Z.div_add by lia. rewrite (Z.div_small (z mod 256)) by (apply Z.mod_pos_bound; lia).
    apply IH. lia.
Qed.
Lemma le_words a b c d : is_word a -> is_word b -> is_word c -> is_word d ->
  le 4 a ++ le 4 b ++ le 4 c ++ le 4 d = le 16 (a + 2 ^ 32 * b + 2 ^ 64 * c + 2 ^ 96 * d).
Proof.
  unfold is_word. intros Ha Hb Hc Hd.
  change 16%nat with (4 + (4 + (4 + 4)))%nat. rewrite !le_split.
  change (256 ^ Z.of_nat 4) with (2 ^ 32).
  assert (E : forall x y, 0 <= x < 2 ^ 32 -> (x + 2 ^ 32 * y) / 2 ^ 32 = y /\ le 4 (x + 2 ^ 32 * y) = le 4 x).
  { intros x y Hx. split.
    - rewrite Z.mul_comm, Z.div_add by lia. rewrite Z.div_small by lia. lia.
    - rewrite <- (le_mod 4 4) by lia. change (256 ^ Z.of_nat 4) with (2 ^ 32).
      rewrite Z.mul_comm, Z_mod_plus_full. rewrite Z.mod_small by lia. reflexivity. }
  replace (a + 2 ^ 32 * b + 2 ^ 64 * c + 2 ^ 96 * d) with (a + 2 ^ 32 * (b + 2 ^ 32 * (c + 2 ^ 32 * d))) by lia.
  destruct (E a (b + 2 ^ 32 * (c + 2 ^ 32 * d)) Ha) as (-> & ->).
  destruct (E b (c + 2 ^ 32 * d) Hb) as (-> & ->). destruct (E c d Hc) as (-> & ->). reflexivity.
Qed.

Lemma land_all x : is_word x -> Z.land x (2 ^ 32 - 1) = x.
Proof. intros H. change (2 ^ 32 - 1) with (Z.ones 32). rewrite Z.land_ones by lia. apply Z.mod_small. exact H. Qed.

(** [a | b] where [a] is below 2^n and [b = k << n] on 32 bits *)
Lemma pack_or a k n : 0 <= n <= 32 -> 0 <= a < 2 ^ n -> 0 <= k ->
  Z.lor a (wshl k n) = a + 2 ^ n * (k mod 2 ^ (32 - n)).
Proof.
  intros Hn Ha Hk. unfold wshl, as_u32. rewrite Z.shiftl_mul_pow2 by lia. rewrite mul_pow_mod by lia.
  rewrite Z.lor_comm, lor_high_low by lia. lia.
Qed.

Lemma ppad_words s : length s = 16%nat -> exists p0 p1 p2 p3, read_u32_le s = [p0; p1; p2; p3] /\
  is_word p0 /\ is_word p1 /\ is_word p2 /\ is_word p3 /\ le_val s = p0 + 2 ^ 32 * p1 + 2 ^ 64 * p2 + 2 ^ 96 * p3.
Proof.
  intros L. do 16 (destruct s as [|? s]; [discriminate L|]). destruct s; [|discriminate L].
  eexists _, _, _, _. split; [cbv [read_u32_le chunks length chunks_fuel firstn skipn map]; reflexivity|].
  repeat match goal with |- _ /\ _ => split end;
    try (unfold is_word; match goal with |- context [le_val ?l] => exact (le_val_range l) end).
  cbn [le_val]. lia.
Qed.

Lemma finalize_ok m p a s : h_ok (ph p) a -> length s = 16%nat -> ppad p = read_u32_le s ->
  finalize m p = Ok (le 16 (a mod P1305 + le_val s)).
Proof.
  intros (h0 & h1 & h2 & h3 & h4 & Eh & Ea & B0 & B1 & B2 & B3 & B4) Ls Ep.
  destruct (ppad_words s Ls) as (p0 & p1 & p2 & p3 & Es & W0 & W1 & W2 & W3 & Ev).
  unfold finalize. rewrite Eh, Ep, Es.
  change (at_ [h0; h1; h2; h3; h4] 0) with h0. change (at_ [h0; h1; h2; h3; h4] 1) with h1.
  change (at_ [h0; h1; h2; h3; h4] 2) with h2. change (at_ [h0; h1; h2; h3; h4] 3) with h3.
  change (at_ [h0; h1; h2; h3; h4] 4) with h4.
  change (at_ [p0; p1; p2; p3] 0) with p0. change (at_ [p0; p1; p2; p3] 1) with p1.
  change (at_ [p0; p1; p2; p3] 2) with p2. change (at_ [p0; p1; p2; p3] 3) with p3.
  clear Eh Ep Es Ls. cbv zeta. unfold wshr at 1 2 3 4 5. unfold add32, mul32.
  rewrite !shiftr26, !land26.
  (* carry *)
  pose proof (Z.div_mod h1 (2 ^ 26) ltac:(lia)) as F1. pose proof (Z.mod_pos_bound h1 (2 ^ 26) ltac:(lia)) as G1.
  set (c1 := h1 / 2 ^ 26) in *. set (e1 := h1 mod 2 ^ 26) in *. clearbody c1 e1.
  rewrite (ck_ok m 32 (h2 + c1)) by lia. cbn [rbind]. rewrite ?shiftr26, ?land26.
  pose proof (Z.div_mod (h2 + c1) (2 ^ 26) ltac:(lia)) as F2. pose proof (Z.mod_pos_bound (h2 + c1) (2 ^ 26) ltac:(lia)) as G2.
  set (c2 := (h2 + c1) / 2 ^ 26) in *. set (e2 := (h2 + c1) mod 2 ^ 26) in *. clearbody c2 e2.
  rewrite (ck_ok m 32 (h3 + c2)) by lia. cbn [rbind]. rewrite ?shiftr26, ?land26.
  pose proof (Z.div_mod (h3 + c2) (2 ^ 26) ltac:(lia)) as F3. pose proof (Z.mod_pos_bound (h3 + c2) (2 ^ 26) ltac:(lia)) as G3.
  set (c3 := (h3 + c2) / 2 ^ 26) in *. set (e3 := (h3 + c2) mod 2 ^ 26) in *. clearbody c3 e3.
  rewrite (ck_ok m 32 (h4 + c3)) by lia. cbn [rbind]. rewrite ?shiftr26, ?land26.
  pose proof (Z.div_mod (h4 + c3) (2 ^ 26) ltac:(lia)) as F4. pose proof (Z.mod_pos_bound (h4 + c3) (2 ^ 26) ltac:(lia)) as G4.
  set (c4 := (h4 + c3) / 2 ^ 26) in *. set (e4 := (h4 + c3) mod 2 ^ 26) in *. clearbody c4 e4.
  assert (C1 : 0 <= c1 <= 1) by lia. assert (C2 : 0 <= c2 <= 1) by lia. assert (C3 : 0 <= c3 <= 1) by lia. assert (C4 : 0 <= c4 <= 1) by lia.
  rewrite (ck_ok m 32 (c4 * 5)) by lia. cbn [rbind].
  rewrite (ck_ok m 32 (h0 + c4 * 5)) by lia. cbn [rbind]. rewrite ?shiftr26, ?land26.
  pose proof (Z.div_mod (h0 + c4 * 5) (2 ^ 26) ltac:(lia)) as F0. pose proof (Z.mod_pos_bound (h0 + c4 * 5) (2 ^ 26) ltac:(lia)) as G0.
  set (c0 := (h0 + c4 * 5) / 2 ^ 26) in *. set (e0 := (h0 + c4 * 5) mod 2 ^ 26) in *. clearbody c0 e0.
  assert (C0 : 0 <= c0 <= 1) by lia.
  (* a carry out of the top limb means the low limbs are small *)
  assert (E1 : 0 <= e1 + c0 < 2 ^ 26).
  { destruct (Z.eq_dec c4 1) as [X|X]; [|lia]. assert (c3 = 1) by lia. assert (c2 = 1) by lia. assert (c1 = 1) by lia. lia. }
  rewrite (ck_ok m 32 (e1 + c0)) by lia. cbn [rbind].
  assert (EV : V e0 (e1 + c0) e2 e3 e4 mod P1305 = a mod P1305).
  { rewrite <- Ea. replace (V h0 h1 h2 h3 h4) with (V e0 (e1 + c0) e2 e3 e4 + c4 * P1305); [symmetry; apply Z_mod_plus_full|].
    unfold V, P1305. lia. }
  set (f1 := e1 + c0) in *. clearbody f1.
  clear F0 F1 F2 F3 F4 C0 C1 C2 C3 C4 G1 B0 B1 B2 B3 B4 Ea. clear h0 h1 h2 h3 h4 c0 c1 c2 c3 c4 e1.
  rename f1 into e1.
  (* conditional subtraction *)
  set (X := V e0 e1 e2 e3 e4) in *.
  assert (HX : 0 <= X < 2 ^ 130) by (unfold X, V; lia).
  unfold wadd. 
  rewrite (Z.mod_small (e0 + 5)) by lia. rewrite ?shiftr26, ?land26.
  pose proof (Z.div_mod (e0 + 5) (2 ^ 26) ltac:(lia)) as F0. pose proof (Z.mod_pos_bound (e0 + 5) (2 ^ 26) ltac:(lia)) as H0.
  set (c0 := (e0 + 5) / 2 ^ 26) in *. set (g0 := (e0 + 5) mod 2 ^ 26) in *. clearbody c0 g0.
  rewrite (Z.mod_small (e1 + c0)) by lia. rewrite ?shiftr26, ?land26.
  pose proof (Z.div_mod (e1 + c0) (2 ^ 26) ltac:(lia)) as F1. pose proof (Z.mod_pos_bound (e1 + c0) (2 ^ 26) ltac:(lia)) as H1.
  set (c1 := (e1 + c0) / 2 ^ 26) in *. set (g1 := (e1 + c0) mod 2 ^ 26) in *. clearbody c1 g1.
  rewrite (Z.mod_small (e2 + c1)) by lia. rewrite ?shiftr26, ?land26.
  pose proof (Z.div_mod (e2 + c1) (2 ^ 26) ltac:(lia)) as F2. pose proof (Z.mod_pos_bound (e2 + c1) (2 ^ 26) ltac:(lia)) as H2.
  set (c2 := (e2 + c1) / 2 ^ 26) in *. set (g2 := (e2 + c1) mod 2 ^ 26) in *. clearbody c2 g2.
  rewrite (Z.mod_small (e3 + c2)) by lia. rewrite ?shiftr26, ?land26.
  pose proof (Z.div_mod (e3 + c2) (2 ^ 26) ltac:(lia)) as F3. pose proof (Z.mod_pos_bound (e3 + c2) (2 ^ 26) ltac:(lia)) as H3.
  set (c3 := (e3 + c2) / 2 ^ 26) in *. set (g3 := (e3 + c2) mod 2 ^ 26) in *. clearbody c3 g3.
  rewrite (Z.mod_small (e4 + c3)) by lia.
  assert (SEL : exists s0 s1 s2 s3 s4,
    (let g4 := as_u32 (e4 + c3 - 2 ^ 26) in
     let mask := as_u32 (Z.shiftr g4 31 - 1) in
     Z.lor (Z.land e0 (wnot mask)) (Z.land g0 mask) = s0 /\ Z.lor (Z.land e1 (wnot mask)) (Z.land g1 mask) = s1 /\
     Z.lor (Z.land e2 (wnot mask)) (Z.land g2 mask) = s2 /\ Z.lor (Z.land e3 (wnot mask)) (Z.land g3 mask) = s3 /\
     Z.lor (Z.land e4 (wnot mask)) (Z.land g4 mask) = s4) /\
    V s0 s1 s2 s3 s4 = a mod P1305 /\ 0 <= s0 < 2 ^ 26 /\ 0 <= s1 < 2 ^ 26 /\ 0 <= s2 < 2 ^ 26 /\ 0 <= s3 < 2 ^ 26 /\ 0 <= s4 < 2 ^ 26).
  { rewrite <- EV.
    destruct (Z.ltb_spec (e4 + c3) (2 ^ 26)) as [Q|Q].
    - (* below p: keep h *)
      exists e0, e1, e2, e3, e4. cbv zeta.
      assert (S : Z.shiftr (as_u32 (e4 + c3 - 2 ^ 26)) 31 = 1).
      { unfold as_u32. replace (e4 + c3 - 2 ^ 26) with (e4 + c3 - 2 ^ 26 + 2 ^ 32 + (-1) * 2 ^ 32) by lia.
        rewrite Z_mod_plus_full, Z.mod_small by lia. rewrite Z.shiftr_div_pow2 by lia.
        symmetry. apply (Z.div_unique _ _ _ (e4 + c3 - 2 ^ 26 + 2 ^ 32 - 2 ^ 31)); lia. }
      rewrite S. change (as_u32 (1 - 1)) with 0. change (wnot 0) with (2 ^ 32 - 1).
      rewrite !Z.land_0_r, !Z.lor_0_r, !land_all by (unfold is_word; lia).
      split; [auto 10|]. split; [|lia].
      fold X. symmetry. apply Z.mod_small. unfold P1305. split; [lia|]. unfold X, V. lia.
    - exists g0, g1, g2, g3, (e4 + c3 - 2 ^ 26). cbv zeta.
      assert (S : as_u32 (e4 + c3 - 2 ^ 26) = e4 + c3 - 2 ^ 26) by (apply Z.mod_small; lia).
      rewrite S.
      assert (S2 : Z.shiftr (e4 + c3 - 2 ^ 26) 31 = 0) by (rewrite Z.shiftr_div_pow2 by lia; apply Z.div_small; lia).
      rewrite S2. change (as_u32 (0 - 1)) with (2 ^ 32 - 1). change (wnot (2 ^ 32 - 1)) with 0.
      rewrite !Z.land_0_r, !Z.lor_0_l, !land_all by (unfold is_word; lia).
      split; [auto 10|].
      assert (EX : V g0 g1 g2 g3 (e4 + c3 - 2 ^ 26) = X - P1305) by (unfold X, V, P1305; lia).
      split; [|lia]. rewrite EX. fold X.
      apply (Z.mod_unique_pos _ _ 1); [|lia]. rewrite <- EX. unfold V, P1305 in *. lia. }
  destruct SEL as (s0 & s1 & s2 & s3 & s4 & (T0 & T1 & T2 & T3 & T4) & EF & I0 & I1 & I2 & I3 & I4).
  unfold wshr in *. cbv zeta in T0, T1, T2, T3, T4.
  rewrite T0, T1, T2, T3, T4. clear T0 T1 T2 T3 T4 F0 F1 F2 F3 H0 H1 H2 H3 c0 c1 c2 c3 g0 g1 g2 g3.
  rewrite <- EF. clear EF EV HX X.
  (* repacking *)
  rewrite !Z.shiftr_div_pow2 by lia.
  pose proof (Z.div_mod s1 (2 ^ 6) ltac:(lia)) as F1. pose proof (Z.mod_pos_bound s1 (2 ^ 6) ltac:(lia)) as K1.
  pose proof (Z.div_mod s2 (2 ^ 12) ltac:(lia)) as F2. pose proof (Z.mod_pos_bound s2 (2 ^ 12) ltac:(lia)) as K2.
  pose proof (Z.div_mod s3 (2 ^ 18) ltac:(lia)) as F3. pose proof (Z.mod_pos_bound s3 (2 ^ 18) ltac:(lia)) as K3.
  pose proof (Z.div_mod s4 (2 ^ 24) ltac:(lia)) as F4. pose proof (Z.mod_pos_bound s4 (2 ^ 24) ltac:(lia)) as K4.
  rewrite (pack_or s0 s1 26), (pack_or (s1 / 2 ^ 6) s2 20), (pack_or (s2 / 2 ^ 12) s3 14), (pack_or (s3 / 2 ^ 18) s4 8) by lia.
  change (32 - 26) with 6. change (32 - 20) with 12. change (32 - 14) with 18. change (32 - 8) with 24.
  set (q1 := s1 / 2 ^ 6) in *. set (q2 := s2 / 2 ^ 12) in *. set (q3 := s3 / 2 ^ 18) in *. set (q4 := s4 / 2 ^ 24) in *.
  set (u1 := s1 mod 2 ^ 6) in *. set (u2 := s2 mod 2 ^ 12) in *. set (u3 := s3 mod 2 ^ 18) in *. set (u4 := s4 mod 2 ^ 24) in *.
  clearbody q1 q2 q3 q4 u1 u2 u3 u4.
  set (w0 := s0 + 2 ^ 26 * u1). set (w1 := q1 + 2 ^ 20 * u2). set (w2 := q2 + 2 ^ 14 * u3). set (w3 := q3 + 2 ^ 8 * u4).
  assert (EW : V s0 s1 s2 s3 s4 = w0 + 2 ^ 32 * w1 + 2 ^ 64 * w2 + 2 ^ 96 * w3 + 2 ^ 128 * q4) by (unfold V, w0, w1, w2, w3; lia).
  rewrite EW. assert (U0 : 0 <= w0 < 2 ^ 32) by (unfold w0; lia). assert (U1 : 0 <= w1 < 2 ^ 32) by (unfold w1; lia).
  assert (U2 : 0 <= w2 < 2 ^ 32) by (unfold w2; lia). assert (U3 : 0 <= w3 < 2 ^ 32) by (unfold w3; lia).
  clearbody w0 w1 w2 w3. clear EW F1 F2 F3 F4 K1 K2 K3 K4 I0 I1 I2 I3 I4 s0 s1 s2 s3 s4 u1 u2 u3 u4 q1 q2 q3.
  unfold is_word in *. unfold add64.
  rewrite (ck_ok m 64 (w0 + p0)) by lia. cbn [rbind].
  pose proof (Z.div_mod (w0 + p0) (2 ^ 32) ltac:(lia)) as F0. pose proof (Z.mod_pos_bound (w0 + p0) (2 ^ 32) ltac:(lia)) as K0.
  rewrite (ck_ok m 64 (w1 + p1)) by lia. cbn [rbind]. rewrite ?Z.shiftr_div_pow2 by lia.
  unfold as_u32.
  set (c0 := (w0 + p0) / 2 ^ 32) in *. set (o0 := (w0 + p0) mod 2 ^ 32) in *. clearbody c0 o0.
  rewrite (ck_ok m 64 (w1 + p1 + c0)) by lia. cbn [rbind]. rewrite ?Z.shiftr_div_pow2 by lia.
  pose proof (Z.div_mod (w1 + p1 + c0) (2 ^ 32) ltac:(lia)) as F1. pose proof (Z.mod_pos_bound (w1 + p1 + c0) (2 ^ 32) ltac:(lia)) as K1.
  set (c1 := (w1 + p1 + c0) / 2 ^ 32) in *. set (o1 := (w1 + p1 + c0) mod 2 ^ 32) in *. clearbody c1 o1.
  rewrite (ck_ok m 64 (w2 + p2)) by lia. cbn [rbind].
  rewrite (ck_ok m 64 (w2 + p2 + c1)) by lia. cbn [rbind]. rewrite ?Z.shiftr_div_pow2 by lia.
  pose proof (Z.div_mod (w2 + p2 + c1) (2 ^ 32) ltac:(lia)) as F2. pose proof (Z.mod_pos_bound (w2 + p2 + c1) (2 ^ 32) ltac:(lia)) as K2.
  set (c2 := (w2 + p2 + c1) / 2 ^ 32) in *. set (o2 := (w2 + p2 + c1) mod 2 ^ 32) in *. clearbody c2 o2.
  rewrite (ck_ok m 64 (w3 + p3)) by lia. cbn [rbind].
  rewrite (ck_ok m 64 (w3 + p3 + c2)) by lia. cbn [rbind].
  pose proof (Z.div_mod (w3 + p3 + c2) (2 ^ 32) ltac:(lia)) as F3. pose proof (Z.mod_pos_bound (w3 + p3 + c2) (2 ^ 32) ltac:(lia)) as K3.
  set (c3 := (w3 + p3 + c2) / 2 ^ 32) in *. set (o3 := (w3 + p3 + c2) mod 2 ^ 32) in *. clearbody c3 o3.
  rewrite le_words by assumption. f_equal.
  rewrite Ev. rewrite <- (le_mod 16 16 (_ + _ + _ + _ + _ + _)) by lia. change (256 ^ Z.of_nat 16) with (2 ^ 128).
  f_equal. apply (Z.mod_unique_pos _ _ (c3 + q4)); lia.
Qed.

Lemma h_ok_congr h a b : a mod P1305 = b mod P1305 -> h_ok h a -> h_ok h b.
Proof.
  intros E (h0 & h1 & h2 & h3 & h4 & Eh & Ea & B). exists h0, h1, h2, h3, h4.
  split; [exact Eh|]. split; [rewrite <- E; exact Ea|exact B].
Qed.

Lemma le_val_zeros n : le_val (zeros n) = 0.
Proof. unfold zeros. induction n as [|n IH]; [reflexivity|]. cbn [repeat le_val]. rewrite IH. reflexivity. Qed.

Lemma block_step m p rx a b : r_ok (pr p) rx -> h_ok (ph p) a -> (0 < length b <= 16)%nat ->
  exists h, (if Nat.eqb (length b) 16 then compute_block m p b false
             else compute_block m p (b ++ [x01] ++ zeros (15 - length b)) true) = Ok (Poly (pr p) h (ppad p)) /\
            h_ok h (rx * (a + (le_val b + 2 ^ (8 * zlen b)))).
Proof.
  intros Hr Hh Hb. destruct (Nat.eqb_spec (length b) 16) as [E|E].
  - destruct (compute_block_ok m p rx a b false Hr Hh E) as (h & -> & H). exists h. split; [reflexivity|].
    unfold zlen. rewrite E. exact H.
  - assert (L : length (b ++ [x01] ++ zeros (15 - length b)) = 16%nat).
    { rewrite !app_length. unfold zeros. rewrite repeat_length. cbn [length]. lia. }
    destruct (compute_block_ok m p rx a _ true Hr Hh L) as (h & -> & H). exists h. split; [reflexivity|].
    assert (EV : le_val (b ++ [x01] ++ zeros (15 - length b)) + 0 = le_val b + 2 ^ (8 * zlen b)).
    { rewrite !le_val_app, le_val_zeros.
      change (le_val [x01]) with 1. change 256 with (2 ^ 8).
      rewrite <- Z.pow_mul_r by (try lia; apply zlen_nonneg). lia. }
    rewrite EV in H. exact H.
Qed.

Lemma poly_acc_mod r msg n : poly_acc r msg n mod P1305 = poly_acc r msg n.
Proof. destruct n; [reflexivity|]. cbn [poly_acc]. apply Z.mod_mod. discriminate. Qed.

Lemma poly_blocks_app m p a b : poly_blocks m p (a ++ b) = (let* p' := poly_blocks m p a in poly_blocks m p' b).
Proof.
  revert p. induction a as [|x a IH]; intros p; [reflexivity|]. cbn [app poly_blocks].
  match goal with |- context [if ?c then ?u else ?v] => destruct (if c then u else v) as [p'| | |] end; cbn [rbind]; auto.
Qed.

Lemma nblocks_bound msg k : (k < nblocks msg)%nat -> (16 * k < length msg)%nat.
Proof.
  unfold nblocks. intros H.
  pose proof (Nat.div_mod (length msg + 15) 16 ltac:(lia)). lia.
Qed.

Lemma poly_blocks_ok m p rx msg : r_ok (pr p) rx -> h_ok (ph p) 0 -> forall n, (n <= nblocks msg)%nat ->
  exists h, poly_blocks m p (map (mblock msg) (seq 0 n)) = Ok (Poly (pr p) h (ppad p)) /\ h_ok h (poly_acc rx msg n).
Proof.
  intros Hr Hh. induction n as [|n IH]; intros Hn.
  - exists (ph p). cbn [seq map poly_blocks poly_acc]. split; [destruct p; reflexivity|exact Hh].
  - destruct IH as (h & E & H); [lia|].
    rewrite seq_S, map_app, poly_blocks_app, E. cbn [rbind map poly_blocks]. rewrite Nat.add_0_l.
    assert (LB : (0 < length (mblock msg n) <= 16)%nat).
    { unfold mblock. rewrite firstn_length, skipn_length. pose proof (nblocks_bound msg n). lia. }
    destruct (block_step m (Poly (pr p) h (ppad p)) rx _ _ Hr H LB) as (h' & -> & H'). cbn [rbind pr ppad].
    exists h'. split; [reflexivity|]. cbn [poly_acc].
    refine (h_ok_congr _ _ _ _ H'). rewrite Z.mod_mod by discriminate. reflexivity.
Qed.

Lemma authenticate_spec m msg r s : length r = 16%nat -> length s = 16%nat ->
  authenticate m msg r s = Ok (poly1305_mac msg r s).
Proof.
  intros Lr Ls. unfold authenticate. rewrite chunks_map by lia.
  change ((length msg + (16 - 1)) / 16)%nat with (nblocks msg).
  change (fun i => firstn 16 (skipn (16 * i) msg)) with (mblock msg).
  assert (H0 : h_ok (ph (poly_new r s)) 0).
  { exists 0, 0, 0, 0, 0. split; [reflexivity|]. split; [reflexivity|]. lia. }
  destruct (poly_blocks_ok m (poly_new r s) _ msg (poly_new_r r s Lr) H0 (nblocks msg) (le_n _)) as (h & -> & H).
  cbn [rbind]. rewrite (finalize_ok m (Poly (pr (poly_new r s)) h (ppad (poly_new r s))) _ s H Ls) by reflexivity.
  rewrite poly_acc_mod. reflexivity.
Qed.

Lemma poly1305_mac_length msg r s : length (poly1305_mac msg r s) = 16%nat.
Proof. apply le_length. Qed.
