(** Specification side of P-256: integers modulo p, radix-2^32 numbers, the curve (FIPS 186-4 D.1.2.3). *)
From Verif Require Export Base.
From Verif Require EC_Abs.
From Coq Require Eqdep_dec.

(** p, FIPS 186-4 D.1.2.3 *)
Definition p256 : Z := 2 ^ 256 - 2 ^ 224 + 2 ^ 192 + 2 ^ 96 - 1.

(** value of a little-endian radix-2^32 number *)
Fixpoint limbs_val (v : list Z) : Z :=
  match v with [] => 0 | x :: r => x + 2 ^ 32 * limbs_val r end.

(** a 256-bit integer in eight limbs *)
Definition int256_ok (v : list Z) : Prop := length v = 8%nat /\ Forall (fun x => 0 <= x < 2 ^ 32) v.
(** fully reduced modulo p *)
Definition reduced (v : list Z) : Prop := int256_ok v /\ limbs_val v < p256.

(** ** The field of integers modulo p *)
Definition Fp : Type := { z : Z | (z =? z mod p256) = true }.
Definition fval (x : Fp) : Z := proj1_sig x.
Definition toF (z : Z) : Fp.
Proof. exists (z mod p256). apply Z.eqb_eq. symmetry. apply Z.mod_mod. discriminate. Defined.
Definition f0 : Fp := toF 0.
Definition f1 : Fp := toF 1.
Definition fadd (x y : Fp) : Fp := toF (fval x + fval y).
Definition fsub (x y : Fp) : Fp := toF (fval x - fval y).
Definition fmul (x y : Fp) : Fp := toF (fval x * fval y).
Definition fopp (x : Fp) : Fp := toF (- fval x).
Fixpoint fpow (x : Fp) (e : positive) : Fp :=
  match e with
  | xH => x
  | xO e => let r := fpow x e in fmul r r
  | xI e => let r := fpow x e in fmul (fmul r r) x
  end.
Definition finv (x : Fp) : Fp := fpow x (Z.to_pos (p256 - 2)).
Definition fdiv (x y : Fp) : Fp := fmul x (finv y).

(** ** The curve y^2 = x^3 - 3x + b, FIPS 186-4 D.1.2.3 *)
Definition cA : Fp := toF (-3).
Definition cB : Fp := toF 0x5ac635d8aa3a93e7b3ebbd55769886bc651d06b0cc53b0f63bce3c3e27d2604b.
Definition pt := EC_Abs.pt Fp.
Definition Inf : pt := @EC_Abs.Inf Fp.
Definition Aff (x y : Fp) : pt := @EC_Abs.Aff Fp x y.
Definition feq_dec (x y : Fp) : {x = y} + {x <> y}.
Proof.
  destruct x as [x Hx], y as [y Hy]. destruct (Z.eq_dec x y) as [E|N].
  - left. subst y. f_equal. apply (Eqdep_dec.UIP_dec Bool.bool_dec).
  - right. intros E. apply N. exact (f_equal (@proj1_sig _ _) E).
Defined.
(** on the curve; the chord-and-tangent sum; the inverse *)
Definition oncurve (P : pt) : Prop := @EC_Abs.on Fp fadd fmul cA cB P.
Definition eadd (P Q : pt) : pt := @EC_Abs.padd Fp f0 f1 fadd fmul fsub fdiv feq_dec cA P Q.
Definition eneg (P : pt) : pt := @EC_Abs.neg Fp fopp P.
(** n-fold sum *)
Fixpoint nmul (n : nat) (P : pt) : pt := match n with O => Inf | S n => eadd P (nmul n P) end.
(** the base point, FIPS 186-4 D.1.2.3 *)
Definition Gx : Z := 0x6b17d1f2e12c4247f8bce6e563a440f277037d812deb33a0f4a13945d898c296.
Definition Gy : Z := 0x4fe342e2fe1a7f9b8ee7eb4a7c0f9e162bce33576b315ececbb6406837bf51f5.
Definition Gpt : pt := Aff (toF Gx) (toF Gy).
(** the point with Jacobian coordinates (x, y, z): (x/z^2, y/z^3), infinity when z = 0 *)
Definition affine (x y z : Fp) : pt :=
  if feq_dec z f0 then Inf else Aff (fdiv x (fmul z z)) (fdiv y (fmul (fmul z z) z)).

(** the scalar that [mult_scalar] actually uses: the low byte of each of the seven low limbs *)
Definition eff_scalar (v : list Z) : Z :=
  nth 0 v 0 mod 256 + 256 * (nth 1 v 0 mod 256) + 256 ^ 2 * (nth 2 v 0 mod 256) + 256 ^ 3 * (nth 3 v 0 mod 256) +
  256 ^ 4 * (nth 4 v 0 mod 256) + 256 ^ 5 * (nth 5 v 0 mod 256) + 256 ^ 6 * (nth 6 v 0 mod 256).
(** big-endian encoding of an affine point, SEC 1 2.3.3 without compression *)
Definition sec1 (x y : Fp) : bytes := x04 :: be 32 (fval x) ++ be 32 (fval y).
