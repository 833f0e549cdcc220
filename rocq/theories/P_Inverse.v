(** p256.rs [inverse] computes a^(p-2), hence the inverse modulo the prime p. *)
From Coq Require Import ZArith Znumtheory Lia List Bool.
From Coq Require Import ZifyBool ZifyNat ZifyN.
From Verif Require Import Base M_P256 Spec_P256 P_Limbs P_Mult P_P256conv NT_Prime NT_P256.
Import ListNotations.
Open Scope Z_scope.

(** [v] holds a^e *)
Definition holds (a e : Z) (v : int256) : Prop := reduced v /\ limbs_val v = a ^ e mod p256.
Lemma mult_holds m a e f x y : 0 <= e -> 0 <= f -> int256_ok x -> limbs_val x mod p256 = a ^ e mod p256 ->
  int256_ok y -> limbs_val y mod p256 = a ^ f mod p256 ->
  exists v, imult m x y = Ok v /\ holds a (e + f) v.
Proof.
  intros He Hf Hx Ex Hy Ey. destruct (imult_spec m x y Hx Hy) as (v & E & R & V). exists v. split; [exact E|].
  split; [exact R|]. rewrite V, Z.pow_add_r by assumption. rewrite Zmult_mod, Ex, Ey, <- Zmult_mod. reflexivity.
Qed.
Lemma holds_mod a e v : holds a e v -> int256_ok v /\ limbs_val v mod p256 = a ^ e mod p256.
Proof. intros [[R _] E]. split; [exact R|]. rewrite E. apply Z.mod_mod. apply p256_nz. Qed.
Lemma mult_hh m a e f x y : 0 <= e -> 0 <= f -> holds a e x -> holds a f y -> exists v, imult m x y = Ok v /\ holds a (e + f) v.
Proof. intros He Hf Hx Hy. apply holds_mod in Hx, Hy. apply mult_holds; tauto. Qed.
Lemma square_h m a e x : 0 <= e -> holds a e x -> exists v, isquare m x = Ok v /\ holds a (2 * e) v.
Proof. intros He Hx. replace (2 * e) with (e + e) by lia. apply mult_hh; assumption. Qed.
Lemma square_n_h m a n : forall e x, 0 <= e -> holds a e x -> exists v, square_n m x n = Ok v /\ holds a (e * 2 ^ Z.of_nat n) v.
Proof.
  induction n as [|n IH]; intros e x He Hx.
  - exists x. split; [reflexivity|]. rewrite Z.pow_0_r, Z.mul_1_r. exact Hx.
  - cbn [square_n]. destruct (square_h m a e x He Hx) as (y & E & Hy). bstep E.
    destruct (IH (2 * e) y ltac:(lia) Hy) as (v & Ev & Hv). exists v. split; [exact Ev|].
    rewrite Nat2Z.inj_succ, Z.pow_succ_r by lia. replace (e * (2 * 2 ^ Z.of_nat n)) with (2 * e * 2 ^ Z.of_nat n) by ring. exact Hv.
Qed.
Lemma z_n_h m a n e x : 0 <= e -> holds a e x -> exists v, z_n m x n = Ok v /\ holds a (e * 2 ^ Z.of_nat n + e) v.
Proof.
  intros He Hx. destruct (square_n_h m a n e x He Hx) as (y & E & Hy). unfold z_n. bstep E.
  apply mult_hh; try assumption. apply Z.mul_nonneg_nonneg; [exact He|apply Z.pow_nonneg; lia].
Qed.
Lemma z_1_h m a e x y : 0 <= e -> holds a e x -> holds a 1 y -> exists v, z_1 m x y = Ok v /\ holds a (2 * e + 1) v.
Proof.
  intros He Hx Hy. destruct (square_h m a e x He Hx) as (z & E & Hz). unfold z_1. bstep E. apply mult_hh; assumption || lia.
Qed.
Lemma iinverse_pow m x : reduced x ->
  exists v, iinverse m x = Ok v /\ reduced v /\ limbs_val v = limbs_val x ^ (p256 - 2) mod p256.
Proof.
  intros Hx. set (a := limbs_val x).
  assert (H1 : holds a 1 x).
  { split; [exact Hx|]. rewrite Z.pow_1_r. symmetry. apply Z.mod_small. destruct Hx as [Hx R].
    pose proof (limbs_val_range x Hx). unfold a. lia. }
  unfold iinverse.
  destruct (z_n_h m a 1 1 x ltac:(lia) H1) as (z2 & E & H2). bstep E. set (e2 := 1 * 2 ^ Z.of_nat 1 + 1) in *.
  destruct (z_n_h m a 2 e2 z2 ltac:(lia) H2) as (z4 & E & H4). bstep E. set (e4 := e2 * 2 ^ Z.of_nat 2 + e2) in *.
  destruct (z_n_h m a 4 e4 z4 ltac:(lia) H4) as (z8 & E & H8). bstep E. set (e8 := e4 * 2 ^ Z.of_nat 4 + e4) in *.
  destruct (z_n_h m a 8 e8 z8 ltac:(lia) H8) as (z16 & E & H16). bstep E. set (e16 := e8 * 2 ^ Z.of_nat 8 + e8) in *.
  destruct (z_n_h m a 16 e16 z16 ltac:(lia) H16) as (z32 & E & H32). bstep E. set (e32 := e16 * 2 ^ Z.of_nat 16 + e16) in *.
  destruct (z_1_h m a e4 z4 x ltac:(lia) H4 H1) as (z5 & E & H5). bstep E. set (e5 := 2 * e4 + 1) in *.
  destruct (z_n_h m a 5 e5 z5 ltac:(lia) H5) as (z10 & E & H10). bstep E. set (e10 := e5 * 2 ^ Z.of_nat 5 + e5) in *.
  destruct (z_1_h m a e10 z10 x ltac:(lia) H10 H1) as (z11 & E & H11). bstep E. set (e11 := 2 * e10 + 1) in *.
  destruct (z_n_h m a 11 e11 z11 ltac:(lia) H11) as (z22 & E & H22). bstep E. set (e22 := e11 * 2 ^ Z.of_nat 11 + e11) in *.
  destruct (z_1_h m a e22 z22 x ltac:(lia) H22 H1) as (z23 & E & H23). bstep E. set (e23 := 2 * e22 + 1) in *.
  destruct (z_n_h m a 23 e23 z23 ltac:(lia) H23) as (z46 & E & H46). bstep E. set (e46 := e23 * 2 ^ Z.of_nat 23 + e23) in *.
  destruct (z_1_h m a e46 z46 x ltac:(lia) H46 H1) as (z47 & E & H47). bstep E. set (e47 := 2 * e46 + 1) in *.
  destruct (z_n_h m a 47 e47 z47 ltac:(lia) H47) as (z94 & E & H94). bstep E. set (e94 := e47 * 2 ^ Z.of_nat 47 + e47) in *.
  destruct (z_1_h m a e94 z94 x ltac:(lia) H94 H1) as (z95 & E & H95). bstep E. set (e95 := 2 * e94 + 1) in *.
  destruct (square_h m a e95 z95 ltac:(lia) H95) as (y96 & E & Hy96). bstep E. set (f96 := 2 * e95) in *.
  destruct (mult_hh m a f96 1 y96 x ltac:(lia) ltac:(lia) Hy96 H1) as (z96 & E & H96). bstep E. set (e96 := f96 + 1) in *.
  destruct (z_n_h m a 96 e96 z96 ltac:(lia) H96) as (z192 & E & H192). bstep E. set (e192 := e96 * 2 ^ Z.of_nat 96 + e96) in *.
  destruct (square_n_h m a 224 e32 z32 ltac:(lia) H32) as (y256 & E & H256). bstep E. set (f256 := e32 * 2 ^ Z.of_nat 224) in *.
  destruct (mult_hh m a f256 e192 y256 z192 ltac:(lia) ltac:(lia) H256 H192) as (r & E & Hr). bstep E.
  destruct (mult_hh m a (f256 + e192) f96 r y96 ltac:(lia) ltac:(lia) Hr Hy96) as (v & E & [Rv V]).
  exists v. split; [exact E|]. split; [exact Rv|]. rewrite V. f_equal.
Qed.

Lemma iinverse_spec m x : reduced x ->
  exists v, iinverse m x = Ok v /\ reduced v /\
    (limbs_val x <> 0 -> (limbs_val v * limbs_val x) mod p256 = 1) /\ (limbs_val x = 0 -> limbs_val v = 0).
Proof.
  intros Hx. destruct (iinverse_pow m x Hx) as (v & E & R & V). exists v. split; [exact E|]. split; [exact R|].
  destruct Hx as [Hx Rx]. pose proof (limbs_val_range x Hx) as B0. split.
  - intros N. rewrite V, Zmult_mod_idemp_l, Z.mul_comm, <- Z.pow_succ_r by (vm_compute; discriminate).
    replace (Z.succ (p256 - 2)) with (p256 - 1) by lia. apply fermat; [apply prime_p256|].
    intros D. apply Z.divide_pos_le in D; lia.
  - intros Z0. rewrite V, Z0, Z.pow_0_l by (vm_compute; reflexivity). reflexivity.
Qed.
