(** Counting: how many random tapes lead to which private value. *)
From Verif Require Export Spec_Ecdhe Spec_Client M_Ecdhe.

(** [S] has exactly [n] elements *)
Definition has_size {A} (S : A -> Prop) (n : Z) : Prop := exists (f : A -> Z) (g : Z -> A),
  (forall a, S a -> 0 <= f a < n /\ g (f a) = a) /\ (forall i, 0 <= i < n -> S (g i) /\ f (g i) = i).
(** ... at most, at least [n] *)
Definition at_most {A} (S : A -> Prop) (n : Z) : Prop := exists f : A -> Z,
  (forall a, S a -> 0 <= f a < n) /\ (forall a b, S a -> S b -> f a = f b -> a = b).
Definition at_least {A} (S : A -> Prop) (n : Z) : Prop := exists g : Z -> A,
  (forall i, 0 <= i < n -> S (g i)) /\ (forall i j, 0 <= i < n -> 0 <= j < n -> g i = g j -> i = j).

(** the tapes from which [get_random_x] draws [k] groups in vain and then the private value [x], using the tape up *)
Definition yields (m : mode) (k : nat) (x : Z) (t : bytes) : Prop :=
  length t = (32 * S k)%nat /\ exists v, get_random_x m t = (Ok v, []) /\ limbs_val v = x.
(** the tapes of [k] groups on which it finds none *)
Definition fruitless (m : mode) (k : nat) (t : bytes) : Prop := length t = (32 * k)%nat /\ fst (get_random_x m t) = Panic.
(** the values a group can have that are not below p *)
Definition spare : Z := 2 ^ 256 - p256.
(** private values of which the key exchange uses the 56 bits [u] *)
Definition with_bits (u : Z) (x : Z) : Prop := 0 <= x < p256 /\ used_scalar x = u.
