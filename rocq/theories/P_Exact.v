(** Proofs about src/crypto/p256.rs and src/cipher/ecdhe.rs: the key space has exactly 56 bits. *)
From Verif Require Import Spec_Client4 P_Util P_Limbs P_Fp P_P256conv P_Scalar NT_P256 NT_Order P_P256X P_Ecdhe P_Client P_Client2 P_Codec P_Client3 P_KeySpace.
From Coq Require Import ZifyBool ZifyNat ZifyN.
Local Open Scope list_scope.
Local Open Scope Z_scope.
Lemma nmul_one P : nmul (Z.to_nat 1) P = P. Proof. destruct P; reflexivity. Qed.
#[local] Opaque SHA256 HMAC aead_seal aead_decrypt aead_encrypt PRF nmul.

(** ** Multiples of one point *)
Lemma same_x x y1 y2 : oncurve (Aff x y1) -> oncurve (Aff x y2) -> y1 = y2 \/ eadd (Aff x y1) (Aff x y2) = Inf.
Proof.
  intros H1 H2. destruct (feq_dec (fadd y1 y2) f0) as [Z0|NZ].
  - right. unfold eadd, Aff. cbn [EC_Abs.padd]. destruct (feq_dec x x) as [_|N]; [|exfalso; apply N; reflexivity].
    destruct (feq_dec (fadd y1 y2) f0) as [_|N]; [reflexivity|contradiction].
  - left. apply curve_eq in H1, H2. rewrite <- H2 in H1. set (C := fadd (fadd x x) x) in *.
    assert (M : fmul (fsub y1 y2) (fadd y1 y2) = f0).
    { transitivity (fsub (fadd (fmul y1 y1) C) (fadd (fmul y2 y2) C)); [ring|]. rewrite H1. ring. }
    destruct (EC_Abs.F_integral Fth feq_dec _ _ M) as [D|D]; [|contradiction].
    transitivity (fadd (fsub y1 y2) y2); [ring|]. rewrite D. ring.
Qed.
Lemma on_multiple s : oncurve (nmul s Gpt). Proof. apply on_nmul, on_G. Qed.
Lemma multiple_finite s d : 0 < s < n256 -> 0 < d < n256 -> nmul (Z.to_nat d) (nmul (Z.to_nat s) Gpt) <> Inf.
Proof.
  intros Hs Hd. rewrite <- nmul_mul by apply on_G. rewrite <- Z2Nat.inj_mul by lia. apply product_finite; assumption.
Qed.
Lemma multiples_lt s a b : 0 < s < n256 -> 0 < a -> a < b -> b < n256 -> nmul (Z.to_nat a) (nmul (Z.to_nat s) Gpt) <> nmul (Z.to_nat b) (nmul (Z.to_nat s) Gpt).
Proof.
  intros Hs Ha Hab Hb E. set (Q := nmul (Z.to_nat s) Gpt) in *. assert (HQ : oncurve Q) by apply on_multiple.
  replace (Z.to_nat b) with (Z.to_nat a + Z.to_nat (b - a))%nat in E by lia. rewrite nmul_add in E by exact HQ. symmetry in E.
  apply eadd_cancel in E; try (apply on_nmul; exact HQ). revert E. apply multiple_finite; [exact Hs|lia].
Qed.
(** different multiples below half the order have different abscissas *)
Theorem multiples_differ s a b x ya yb : 0 < s < n256 -> 0 < a < 2 ^ 56 -> 0 < b < 2 ^ 56 ->
  nmul (Z.to_nat a) (nmul (Z.to_nat s) Gpt) = Aff x ya -> nmul (Z.to_nat b) (nmul (Z.to_nat s) Gpt) = Aff x yb -> a = b.
Proof.
  intros Hs Ha Hb Ea Eb. set (Q := nmul (Z.to_nat s) Gpt) in *. assert (HQ : oncurve Q) by apply on_multiple.
  assert (Big : 2 ^ 57 < n256) by reflexivity.
  assert (Oa : oncurve (Aff x ya)) by (rewrite <- Ea; apply on_nmul; exact HQ). assert (Ob : oncurve (Aff x yb)) by (rewrite <- Eb; apply on_nmul; exact HQ).
  destruct (same_x x ya yb Oa Ob) as [->|I].
  - rewrite <- Eb in Ea. destruct (Z.lt_trichotomy a b) as [L|[E|L]]; [|exact E|].
    + exfalso. refine (multiples_lt s a b Hs _ L _ Ea); clear - Ha Hb Big; lia.
    + exfalso. symmetry in Ea. refine (multiples_lt s b a Hs _ L _ Ea); clear - Ha Hb Big; lia.
  - exfalso. rewrite <- Ea, <- Eb, <- nmul_add, <- Z2Nat.inj_add in I by (exact HQ || lia). revert I. apply multiple_finite; [exact Hs|]. clear - Ha Hb Big. lia.
Qed.

(** ** What the two messages reveal *)
Lemma abscissa_inj (x y : Fp) (r q : bytes) : be 32 (fval x) ++ r = be 32 (fval y) ++ q -> x = y.
Proof.
  intros E. apply feq. apply (f_equal (firstn 32)) in E. rewrite !firstn_app, !be_length, Nat.sub_diag, !firstn_O, !app_nil_r, !firstn_all2 in E by (rewrite be_length; lia).
  apply (f_equal be_val) in E. rewrite !be_val_be in E. change (256 ^ Z.of_nat 32) with (2 ^ 256) in E.
  assert (L : forall z : Fp, 0 <= fval z < 2 ^ 256) by (intros z; pose proof (fval_range z); assert (p256 < 2 ^ 256) by reflexivity; lia).
  rewrite !Z.mod_small in E by apply L. exact E.
Qed.
Theorem keys_exact m sv g1 g2 j1 j2 ss1 ss2 cr1 cr2 : wf_server sv -> first_accepted g1 j1 -> first_accepted g2 j2 ->
  let u1 := used_scalar (draw g1 j1) in let u2 := used_scalar (draw g2 j2) in u1 <> 0 -> u2 <> 0 ->
  agreed sv cr1 (nmul (Z.to_nat u1) Gpt) ss1 -> agreed sv cr2 (nmul (Z.to_nat u2) Gpt) ss2 ->
  compute_keys m (s_ske ss1) g1 = (Ok (s_cke ss1, s_pms ss1), skipn (32 * S j1) g1) /\
  compute_keys m (s_ske ss2) g2 = (Ok (s_cke ss2, s_pms ss2), skipn (32 * S j2) g2) /\
  s_ske ss1 = s_ske ss2 /\ (s_cke ss1 = s_cke ss2 <-> u1 = u2) /\ (s_pms ss1 = s_pms ss2 <-> u1 = u2).
Proof.
  intros W F1 F2 u1 u2 N1 N2 A1 A2.
  split; [exact (exchange_agrees m sv g1 j1 ss1 cr1 W F1 N1 A1)|]. split; [exact (exchange_agrees m sv g2 j2 ss2 cr2 W F2 N2 A2)|].
  pose proof (used_range (draw g1 j1)) as R1. pose proof (used_range (draw g2 j2)) as R2. fold u1 in R1. fold u2 in R2. clearbody u1 u2.
  destruct A1 as (sx & sy & cx & cy & zx & zy & Es & Ec & Ez & ->). destruct A2 as (sx' & sy' & cx' & cy' & zx' & zy' & Es' & Ec' & Ez' & ->).
  cbn [s_ske s_cke s_pms]. rewrite Es in Es'. apply Aff_inj in Es' as [-> ->]. split; [reflexivity|].
  destruct W as (_ & _ & Hd & _). rewrite order_eq in Hd.
  assert (Cong : u1 = u2 -> (cx = cx' /\ cy = cy') /\ zx = zx').
  { intros E. subst u2. rewrite Ec in Ec'. apply Aff_inj in Ec' as [-> ->]. rewrite Ez in Ez'. apply Aff_inj in Ez' as [-> _]. auto. }
  split; (split; [|intros E; destruct (Cong E) as [[-> ->] ->]; reflexivity]).
  - intros E. rewrite !sec1_enc in E. unfold enc in E. assert (X : be 32 (fval cx) ++ be 32 (fval cy) = be 32 (fval cx') ++ be 32 (fval cy')) by congruence.
    apply abscissa_inj in X. subst cx'. refine (multiples_differ 1 u1 u2 cx cy cy' _ _ _ _ _); [split; reflexivity|lia|lia| |]; rewrite nmul_one; assumption.
  - intros E. apply (f_equal (fun b => b ++ [])) in E. apply abscissa_inj in E. subst zx'.
    rewrite nmul_comm in Ez by apply on_G. rewrite nmul_comm in Ez' by apply on_G. refine (multiples_differ (sv_secret sv) u1 u2 zx zy zy' Hd _ _ Ez Ez'); lia.
Qed.
(** ** Every one of the 2^56 values occurs *)
Definition spread (u : Z) : Z :=
  u mod 256 + 2 ^ 32 * (u / 256 mod 256) + 2 ^ 64 * (u / 256 ^ 2 mod 256) + 2 ^ 96 * (u / 256 ^ 3 mod 256) +
  2 ^ 128 * (u / 256 ^ 4 mod 256) + 2 ^ 160 * (u / 256 ^ 5 mod 256) + 2 ^ 192 * (u / 256 ^ 6 mod 256).
Lemma unspread b0 b1 b2 b3 b4 b5 b6 : 0 <= b0 < 256 -> 0 <= b1 < 256 -> 0 <= b2 < 256 -> 0 <= b3 < 256 -> 0 <= b4 < 256 -> 0 <= b5 < 256 -> 0 <= b6 < 256 ->
  used_scalar (b0 + 2 ^ 32 * b1 + 2 ^ 64 * b2 + 2 ^ 96 * b3 + 2 ^ 128 * b4 + 2 ^ 160 * b5 + 2 ^ 192 * b6) =
  b0 + 256 * b1 + 256 ^ 2 * b2 + 256 ^ 3 * b3 + 256 ^ 4 * b4 + 256 ^ 5 * b5 + 256 ^ 6 * b6.
Proof.
  intros. unfold used_scalar. set (x := b0 + _ + _ + _ + _ + _ + _).
  assert (M : forall b t, 0 <= b < 256 -> (b + 2 ^ 32 * t) mod 256 = b).
  { intros b t Hb. symmetry. apply Z.mod_unique with (2 ^ 24 * t); [left; exact Hb|]. change (2 ^ 32) with (256 * 2 ^ 24). ring. }
  assert (E0 : x mod 256 = b0). { assert (X : x = b0 + 2 ^ 32 * (b1 + 2 ^ 32 * b2 + 2 ^ 64 * b3 + 2 ^ 96 * b4 + 2 ^ 128 * b5 + 2 ^ 160 * b6)) by (unfold x; ring). rewrite X. apply M. assumption. }
  assert (Dv : forall k q r, 0 <= r < k -> x = k * q + r -> x / k = q) by (intros k q r Hr Hx; symmetry; apply Z.div_unique with r; [left; exact Hr|exact Hx]).
  rewrite E0.
  rewrite (Dv (2 ^ 32) (b1 + 2 ^ 32 * (b2 + 2 ^ 32 * b3 + 2 ^ 64 * b4 + 2 ^ 96 * b5 + 2 ^ 128 * b6)) b0) by (unfold x; lia). rewrite M by assumption.
  rewrite (Dv (2 ^ 64) (b2 + 2 ^ 32 * (b3 + 2 ^ 32 * b4 + 2 ^ 64 * b5 + 2 ^ 96 * b6)) (b0 + 2 ^ 32 * b1)) by (unfold x; lia). rewrite M by assumption.
  rewrite (Dv (2 ^ 96) (b3 + 2 ^ 32 * (b4 + 2 ^ 32 * b5 + 2 ^ 64 * b6)) (b0 + 2 ^ 32 * b1 + 2 ^ 64 * b2)) by (unfold x; lia). rewrite M by assumption.
  rewrite (Dv (2 ^ 128) (b4 + 2 ^ 32 * (b5 + 2 ^ 32 * b6)) (b0 + 2 ^ 32 * b1 + 2 ^ 64 * b2 + 2 ^ 96 * b3)) by (unfold x; lia). rewrite M by assumption.
  rewrite (Dv (2 ^ 160) (b5 + 2 ^ 32 * b6) (b0 + 2 ^ 32 * b1 + 2 ^ 64 * b2 + 2 ^ 96 * b3 + 2 ^ 128 * b4)) by (unfold x; lia). rewrite M by assumption.
  rewrite (Dv (2 ^ 192) b6 (b0 + 2 ^ 32 * b1 + 2 ^ 64 * b2 + 2 ^ 96 * b3 + 2 ^ 128 * b4 + 2 ^ 160 * b5)) by (unfold x; lia). rewrite (Z.mod_small b6) by assumption. reflexivity.
Qed.
Lemma base256 u : 0 <= u < 2 ^ 56 -> u mod 256 + 256 * (u / 256 mod 256) + 256 ^ 2 * (u / 256 ^ 2 mod 256) + 256 ^ 3 * (u / 256 ^ 3 mod 256) +
  256 ^ 4 * (u / 256 ^ 4 mod 256) + 256 ^ 5 * (u / 256 ^ 5 mod 256) + 256 ^ 6 * (u / 256 ^ 6 mod 256) = u.
Proof.
  intros U. assert (S : forall k, 0 <= k -> u / 256 ^ k = 256 * (u / 256 ^ (k + 1)) + u / 256 ^ k mod 256).
  { intros k Hk. rewrite Z.pow_add_r, Z.pow_1_r, <- Z.div_div by lia. apply Z.div_mod. discriminate. }
  pose proof (S 0 ltac:(lia)) as S0. pose proof (S 1 ltac:(lia)) as S1. pose proof (S 2 ltac:(lia)) as S2. pose proof (S 3 ltac:(lia)) as S3. pose proof (S 4 ltac:(lia)) as S4.
  pose proof (S 5 ltac:(lia)) as S5. assert (S6 : u / 256 ^ 6 mod 256 = u / 256 ^ 6) by (apply Z.mod_small; split; [apply Z.div_pos; [lia|reflexivity]|apply Z.div_lt_upper_bound; [reflexivity|exact (proj2 U)]]).
  rewrite Z.pow_0_r, Z.div_1_r in S0. cbn [Z.add] in S0. change (0 + 1) with 1 in *. change (1 + 1) with 2 in *. change (2 + 1) with 3 in *. change (3 + 1) with 4 in *. change (4 + 1) with 5 in *. change (5 + 1) with 6 in *.
  rewrite Z.pow_1_r in *. rewrite S6.
  generalize dependent (u / 256 ^ 6). generalize dependent (u / 256 ^ 5 mod 256). generalize dependent (u / 256 ^ 5). generalize dependent (u / 256 ^ 4 mod 256). generalize dependent (u / 256 ^ 4).
  generalize dependent (u / 256 ^ 3 mod 256). generalize dependent (u / 256 ^ 3). generalize dependent (u / 256 ^ 2 mod 256). generalize dependent (u / 256 ^ 2). generalize dependent (u / 256 mod 256). generalize dependent (u / 256).
  generalize dependent (u mod 256). clear. intros. lia.
Qed.
Theorem every_scalar u : 0 <= u < 2 ^ 56 -> exists g, first_accepted g 0 /\ used_scalar (draw g 0) = u.
Proof.
  intros U. exists (le 32 (spread u)).
  assert (B : forall z, 0 <= z mod 256 < 256) by (intros z; apply Z.mod_pos_bound; reflexivity).
  assert (R : 0 <= spread u < 2 ^ 200).
  { unfold spread. pose proof (B u). pose proof (B (u / 256)). pose proof (B (u / 256 ^ 2)). pose proof (B (u / 256 ^ 3)). pose proof (B (u / 256 ^ 4)). pose proof (B (u / 256 ^ 5)). pose proof (B (u / 256 ^ 6)).
    generalize dependent (u mod 256). generalize dependent (u / 256 mod 256). generalize dependent (u / 256 ^ 2 mod 256). generalize dependent (u / 256 ^ 3 mod 256).
    generalize dependent (u / 256 ^ 4 mod 256). generalize dependent (u / 256 ^ 5 mod 256). generalize dependent (u / 256 ^ 6 mod 256). clear. intros. lia. }
  assert (D : draw (le 32 (spread u)) 0 = spread u).
  { unfold draw. rewrite Nat.mul_0_r. cbn [skipn]. rewrite firstn_all2 by (rewrite le_length; lia). rewrite le_val_le. apply Z.mod_small. change (256 ^ Z.of_nat 32) with (2 ^ 256).
    clear - R. lia. }
  split.
  - split; [rewrite le_length; lia|]. split; [rewrite D; eapply Z.lt_trans; [apply R|reflexivity]|]. intros j J. lia.
  - rewrite D. unfold spread. rewrite unspread by apply B. apply base256. exact U.
Qed.
