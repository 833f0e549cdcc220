(** What the constructors of messages and the remaining wire types of the key exchange should do. *)
From Verif Require Import Spec_Wire.

(** a constructor that refuses with [DecodeError] exactly when [ok] does not hold *)
Definition accepts {A} (r : res A) (ok : Prop) (v : A) : Prop := (ok -> r = Ok v) /\ (~ ok -> r = Err DecodeError).

(** RFC 4492 5.4 ECCurve: two [opaque <1..2^8-1>] vectors *)
Definition wf_ec_curve (c : ec_curve) : Prop := in_range 1 (zlen (ecc_a c)) 255 /\ in_range 1 (zlen (ecc_b c)) 255.
(** the same, on the wire *)
Definition e_ec_curve (c : ec_curve) : bytes := sp_vec 1 (ecc_a c) ++ sp_vec 1 (ecc_b c).
(** big-endian integers of [w] bytes: what is written, what is read, what is too short, the announced size *)
Definition num_type (I : item Z) (w : nat) : Prop := forall z rest,
  (0 <= z < 256 ^ Z.of_nat w -> tls_write I z = Ok (be w z)) /\
  (0 <= z < 256 ^ Z.of_nat w -> tls_read I (be w z ++ rest) = Ok (z, rest)) /\
  (forall short, (length short < w)%nat -> tls_read I short = Err IoFailure) /\
  tls_size I z = Z.of_nat w.
