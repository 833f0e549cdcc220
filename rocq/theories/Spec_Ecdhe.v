(** Specification vocabulary for src/cipher/ecdhe.rs. *)
From Verif Require Export M_Ecdhe Spec_Point Spec_Wire.

(** the [k]-th group of eight 32-bit draws as a number: [next_u32] is little-endian and the limbs are least
    significant first, so it is the little-endian number in 32 consecutive bytes of the tape *)
Definition draw (g : rng) (k : nat) : Z := le_val (firstn 32 (skipn (32 * k) g)).
(** group [k] is complete and below p, and no earlier one is *)
Definition first_accepted (g : rng) (k : nat) : Prop :=
  (32 * S k <= length g)%nat /\ draw g k < p256 /\ forall j, (j < k)%nat -> p256 <= draw g j.
(** the tape has an acceptable group at all *)
Definition enough_randomness (g : rng) : Prop := exists k, first_accepted g k.
