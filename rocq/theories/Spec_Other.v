(** Other curves with the same first coefficient as P-256: y^2 = x^3 - 3x + c.  The chord-and-tangent sum [eadd] does not mention c. *)
From Verif Require Export Base Spec_P256 Spec_Point Spec_Decode256 Spec_Client.

Definition on_c (c : Fp) (P : pt) : Prop := match P with EC_Abs.Inf _ => True | EC_Abs.Aff x y => fmul y y = fadd (fadd (fmul (fmul x x) x) (fmul cA x)) c end.
(** no singular point: c is neither 2 nor -2 *)
Definition smooth (c : Fp) : Prop := c <> toF 2 /\ c <> toF (-2).
(** the secret taken from a point: its x coordinate, or zero for the point at infinity *)
Definition secret_of (P : pt) : bytes := match P with EC_Abs.Inf _ => be 32 0 | EC_Abs.Aff x _ => be 32 (fval x) end.
(** the coefficient of the curve a received x coordinate leads to *)
Definition c_of (x : Z) : Fp := toF (b256 + oversteps x * excess).
