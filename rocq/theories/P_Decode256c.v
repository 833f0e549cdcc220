(** The point of a handshake that went through. *)
From Verif Require Import Spec_Client Spec_Client2 P_Client P_Client2 P_Client3 P_Client4 P_Panic P_Ecdhe P_Client5 Spec_Decode256 P_Decode256 P_Limbs.
From Coq Require Import ZifyBool ZifyNat ZifyN.
Local Open Scope list_scope.
Local Open Scope Z_scope.
#[local] Opaque from_uncompressed_bytes enc welcome overstepping p256 excess on_curve_of.
Lemma handshake_point m s p g c : client_new m s p g = (Ok tt, c) -> exists ss k rest x y,
  reached m s g (Complete ss) /\ tls_read i_ske (s_ske ss) = Ok (k, rest) /\ ske_public k = enc x y /\ 0 <= x < 2 ^ 256 /\ 0 <= y < 2 ^ 256 /\
  welcome x y /\ on_curve_of (b256 + oversteps x * excess) x y /\ (m = Debug -> oversteps x = 0).
Proof.
  intros H. apply connected in H as (ss & R & _). exists ss. destruct R as (L & Cr & Fl & V & S0 & C & g' & K).
  pose proof (compute_keys_cases m (s_ske ss) (skipn 32 g)) as CK. rewrite K in CK. destruct CK as (_ & _ & k & rest & N & K1 & K2).
  apply exact_all in K2 as (Ox & Oy & D & A & O). pose proof (limbs_val_range _ Ox) as Rx. pose proof (limbs_val_range _ Oy) as Ry.
  exists k, rest, (limbs_val (nx N)), (limbs_val (ny N)).
  split; [exact (conj L (conj Cr (conj Fl (conj V (conj S0 (conj C (ex_intro _ g' K)))))))|]. split; [exact K1|]. split; [exact D|].
  split; [exact Rx|]. split; [exact Ry|]. split; [exact A|]. split; [exact (welcome_curve _ _ A)|].
  intros M. apply (overstepping_0 _ (proj2 Rx)). exact (O M).
Qed.
