(** C84: how the private value is distributed. *)
From Verif Require Import Spec_Dist P_Util P_Dist.
From Coq Require Import ZifyBool ZifyNat ZifyN.
Local Open Scope list_scope.
Local Open Scope Z_scope.

(** ** C84 *)
(** every private value below p comes from the same number of tapes, for every number of groups drawn in vain *)
Theorem C84_uniform : forall m k x, 0 <= x < p256 -> has_size (yields m k x) (spare ^ Z.of_nat k).
Proof. exact yields_size. Qed.
Print Assumptions C84_uniform.
(** and no other value from any *)
Theorem C84_nothing_else : forall m k x, ~ 0 <= x < p256 -> forall t, ~ yields m k x t.
Proof. exact yields_none. Qed.
Print Assumptions C84_nothing_else.
(** of the 2^(256 k) tapes of k groups, this many give nothing: less than one in 2^(32 k) *)
Theorem C84_fruitless : forall m k, has_size (fruitless m k) (spare ^ Z.of_nat k).
Proof. exact fruitless_size. Qed.
Print Assumptions C84_fruitless.
Example ex_spare : 0 < spare < 2 ^ 224.
Proof. split; reflexivity. Qed.
Example ex_yields : forall m, yields m 0 5 (le 32 5) /\ yields m 1 5 (repeat xff 32 ++ le 32 5) /\ fruitless m 1 (repeat xff 32).
Proof.
  intros m. split; [|split]; (split; [reflexivity|]).
  - eexists. split; destruct m; vm_compute; reflexivity.
  - eexists. split; destruct m; vm_compute; reflexivity.
  - destruct m; vm_compute; reflexivity.
Qed.
(** each of the 2^56 values the key exchange can use has nearly 2^200 private values behind it: the most likely is at most 1 + 2^-31 times as likely as the least *)
Theorem C84_used_bits_at_most : forall u, at_most (with_bits u) (2 ^ 200).
Proof. exact bits_most. Qed.
Print Assumptions C84_used_bits_at_most.
Theorem C84_used_bits_at_least : forall u, 0 <= u < 2 ^ 56 -> at_least (with_bits u) (2 ^ 200 - 2 ^ 168).
Proof. exact bits_least. Qed.
Print Assumptions C84_used_bits_at_least.
Example ex_bits : with_bits 5 5 /\ with_bits 5 (5 + 2 ^ 8) /\ with_bits 5 (5 + 2 ^ 255) /\ with_bits (2 ^ 8) (2 ^ 32).
Proof. unfold with_bits. repeat split; vm_compute; try reflexivity; discriminate. Qed.
(** the two counts are close to each other *)
Example ex_close : 2 ^ 200 * 2 ^ 31 < (2 ^ 200 - 2 ^ 168) * (2 ^ 31 + 1).
Proof. reflexivity. Qed.
(** the sizes mean what they should *)
Example ex_size : has_size (fun x : Z => 3 <= x < 7) 4 /\ at_most (fun x : Z => 3 <= x < 7) 4 /\ at_least (fun x : Z => 3 <= x < 7) 4 /\ ~ at_least (fun x : Z => x = 3) 2.
Proof.
  assert (H : has_size (fun x : Z => 3 <= x < 7) 4) by (exists (fun x => x - 3), (fun i => i + 3); split; intros; lia).
  split; [exact H|]. split; [apply size_most, H|]. split; [apply size_least, H|]. intros (g & G1 & G2).
  assert (0 = 1) by (apply G2; try lia; rewrite !G1 by lia; reflexivity). lia.
Qed.
