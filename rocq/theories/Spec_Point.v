(** Specification side of P-256 points: which field element and which curve point a representation of src/crypto/p256.rs stands for. *)
From Verif Require Export M_P256 Spec_P256.

(** the field element held by eight limbs *)
Definition fv (v : int256) : Fp := toF (limbs_val v).
(** well-formed Jacobian triples: reduced coordinates, or a just-decoded point with z = 1 and 256-bit x and y *)
Definition pok (P : point) : Prop :=
  int256_ok (px P) /\ int256_ok (py P) /\ reduced (pz P) /\ (reduced (px P) /\ reduced (py P) \/ pz P = ONE).
(** the affine point represented *)
Definition jac (P : point) : pt := affine (fv (px P)) (fv (py P)) (fv (pz P)).
(** one side's public value and the shared point, combined as in ecdhe.rs:149-159 *)
Definition dh_public (m : mode) (a : int256) : res npoint := let* r := mult_scalar m G a in normalize m r.
Definition dh_shared (m : mode) (N : npoint) (a : int256) : res npoint := let* r := mult_scalar m (to_point N) a in normalize m r.
(** 04 || x || y, big-endian *)
Definition enc (x y : Z) : bytes := x04 :: be 32 x ++ be 32 y.
