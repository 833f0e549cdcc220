(** More proofs about src/util.rs and src/tls_item.rs: arguments of unequal length. *)
From Verif Require Import Spec_Util Spec_Wire P_Util P_Codec.
From Coq Require Import ZifyBool ZifyNat ZifyN.
Local Open Scope list_scope.
Local Open Scope Z_scope.

Lemma compare_loop_cut a : forall b d, (length a <= length b)%nat -> compare_loop d a b = compare_loop d a (firstn (length a) b).
Proof. induction a as [|x a IH]; intros [|y b] d L; cbn in *; try lia; [reflexivity|reflexivity|]. apply IH. lia. Qed.
Lemma compare_loop_short a : forall b d, (length b < length a)%nat -> compare_loop d a b = Panic.
Proof. induction a as [|x a IH]; intros [|y b] d L; cbn in *; try lia; [reflexivity|]. apply IH. lia. Qed.
(** without the debug assertion: a second argument that is longer is cut, one that is shorter is indexed past its end *)
Theorem compare_release a b :
  ((length b < length a)%nat -> crypto_compare Release a b = Panic) /\
  ((length a <= length b)%nat -> exists r, crypto_compare Release a b = Ok r /\ (r = true <-> a = firstn (length a) b)).
Proof.
  split; intros L.
  - unfold crypto_compare. cbn [dassert rbind]. rewrite compare_loop_short by exact L. reflexivity.
  - assert (E : crypto_compare Release a b = crypto_compare Release a (firstn (length a) b))
      by (unfold crypto_compare; cbn [dassert rbind]; rewrite <- compare_loop_cut by exact L; reflexivity).
    rewrite E. apply compare_decides. rewrite firstn_length. lia.
Qed.
Theorem array_new_spec n v :
  (length v = n -> array_new n v = Ok v) /\ (length v <> n -> array_new n v = Err InternalError).
Proof. unfold array_new. destruct (Nat.eqb_spec (length v) n); split; intros; auto; contradiction. Qed.
