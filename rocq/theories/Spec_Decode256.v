(** Which pairs of 256-bit numbers are taken for a point, in integers: FIPS 186-4's p and b, and the distance from p to 2^256. *)
From Verif Require Export Base Spec_P256 Spec_Point.

(** b, FIPS 186-4 D.1.2.3 *)
Definition b256 : Z := 0x5ac635d8aa3a93e7b3ebbd55769886bc651d06b0cc53b0f63bce3c3e27d2604b.
(** the numbers of 256 bits that are not below p: this many *)
Definition excess : Z := 2 ^ 256 - p256.
(** x is at or above p, and tripling what it has above p passes 2^256 *)
Definition overstepping (x : Z) : Prop := p256 <= x /\ excess <= 3 * (x - p256).
(** how often it does: 0, 1 or 2 *)
Definition oversteps (x : Z) : Z := if x <? p256 then 0 else 3 * (x - p256) / excess.
(** below p, the equation of the curve modulo p; from p on, an equation between integers *)
Definition welcome (x y : Z) : Prop :=
  (x < p256 /\ (y * y + 3 * x) mod p256 = (x * x * x + b256) mod p256) \/
  (p256 <= x /\ (y * y) mod p256 + (3 * (x - p256)) mod excess = (x * x * x + b256) mod p256).
(** what decoding gives: the two numbers, or nothing *)
Definition decided (x y : Z) (r : res (option npoint)) : Prop :=
  (welcome x y /\ exists N, r = Ok (Some N) /\ int256_ok (nx N) /\ int256_ok (ny N) /\ limbs_val (nx N) = x /\ limbs_val (ny N) = y) \/
  (~ welcome x y /\ r = Ok None).
(** y^2 = x^3 - 3x + c modulo p *)
Definition on_curve_of (c x y : Z) : Prop := (y * y) mod p256 = (x * x * x - 3 * x + c) mod p256.
