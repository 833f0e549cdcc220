(** C103: how many one-time keys a forged record works for. *)
From Verif Require Import Spec_Forge P_Forge.
From Coq Require Import Znumtheory.
Local Open Scope list_scope.
Local Open Scope Z_scope.

(** two different messages with any two tags are explained by at most [2^25] keys for every block of the longer one *)
Theorem C103_forgery : forall msg msg' tag tag' keys, msg <> msg' -> NoDup keys ->
  Forall (fun k => length (fst k) = 16%nat /\ length (snd k) = 16%nat /\
                   poly1305_mac msg (fst k) (snd k) = tag /\ poly1305_mac msg' (fst k) (snd k) = tag') keys ->
  Z.of_nat (length keys) <= 2 ^ 25 * Z.of_nat (Nat.max (nblocks msg) (nblocks msg')).
Proof. exact forgery_bound. Qed.
Print Assumptions C103_forgery.
(** so for the tags the code computes over additional data and ciphertext: having seen one, another works for few of the keys that explain it *)
Theorem C103_code : forall m ad ct tag ad' ct' tag' keys,
  zlen ad < 2 ^ 64 -> zlen ct < 2 ^ 64 -> zlen ad' < 2 ^ 64 -> zlen ct' < 2 ^ 64 -> (ad, ct, tag) <> (ad', ct', tag') -> NoDup keys ->
  Forall (fun k => length k = 32%nat /\ compute_mac m k ct ad = Ok tag /\ compute_mac m k ct' ad' = Ok tag') keys ->
  Z.of_nat (length keys) <= 2 ^ 25 * Z.max (mac_blocks ad ct) (mac_blocks ad' ct').
Proof. exact code_forgery. Qed.
Print Assumptions C103_code.
(** which are [2^128]: one for each first half *)
Theorem C103_consistent : forall m ct ad tag r, length tag = 16%nat -> length r = 16%nat ->
  exists! s : bytes, length s = 16%nat /\ compute_mac m (r ++ s) ct ad = Ok tag.
Proof. exact code_consistent. Qed.
Print Assumptions C103_consistent.
(** for records it is less than one in [2^92] *)
Theorem C103_record : forall m ad ct tag ad' ct' tag' keys,
  zlen ad = 13 -> zlen ad' = 13 -> zlen ct <= 18432 -> zlen ct' <= 18432 -> (ad, ct, tag) <> (ad', ct', tag') -> NoDup keys ->
  Forall (fun k => length k = 32%nat /\ compute_mac m k ct ad = Ok tag /\ compute_mac m k ct' ad' = Ok tag') keys ->
  2 ^ 92 * Z.of_nat (length keys) < 2 ^ 128.
Proof. exact record_forgery. Qed.
Print Assumptions C103_record.
(** so for what the decryptor opens *)
Theorem C103_open : forall m nonce ad ct tag ad' ct' tag' keys,
  length nonce = 12%nat -> fits ct -> fits ct' -> length tag = 16%nat -> length tag' = 16%nat -> zlen ad < 2 ^ 64 -> zlen ad' < 2 ^ 64 ->
  (ad, ct, tag) <> (ad', ct', tag') -> NoDup (map (fun key => poly_key_gen key nonce) keys) ->
  Forall (fun key => length key = 32%nat /\
            (exists p, dc_decrypt (new_decryptor m key) nonce (ct ++ tag) ad = Ok p) /\
            (exists p, dc_decrypt (new_decryptor m key) nonce (ct' ++ tag') ad' = Ok p)) keys ->
  Z.of_nat (length keys) <= 2 ^ 25 * Z.max (mac_blocks ad ct) (mac_blocks ad' ct').
Proof. exact open_forgery. Qed.
Print Assumptions C103_open.
(** the modulus is prime *)
Theorem C103_prime : prime (2 ^ 130 - 5).
Proof. exact prime_p1305. Qed.
Print Assumptions C103_prime.
(** that no key at all lets the tag of one ciphertext pass for another is false: keys with a clamped half of zero give everything the same tag *)
Theorem C103_never_refuted : exists k tag ad ct ct', length k = 32%nat /\ ct <> ct' /\
  forall m, compute_mac m k ct ad = Ok tag /\ compute_mac m k ct' ad = Ok tag.
Proof. exact never_false. Qed.
Print Assumptions C103_never_refuted.
Theorem C103_weak : forall m k ct ad, length k = 32%nat -> clamp (le_val (firstn 16 k)) = 0 -> compute_mac m k ct ad = Ok (skipn 16 k).
Proof. exact weak_key. Qed.
Print Assumptions C103_weak.

Example ex_two_keys : let k b := repeat x00 3 ++ [b] ++ repeat x00 12 ++ repeat x2a 16 in
  NoDup [k x00; k xf0] /\ ([x07], [x01], repeat x2a 16) <> ([x07], [x02], repeat x2a 16) /\
  Forall (fun key => length key = 32%nat /\ compute_mac Debug key [x01] [x07] = Ok (repeat x2a 16) /\ compute_mac Debug key [x02] [x07] = Ok (repeat x2a 16)) [k x00; k xf0].
Proof.
  split; [|split; [discriminate|]].
  - constructor; [cbn; intros [E|[]]; discriminate E|constructor; [intros []|constructor]].
  - repeat (constructor; [vm_compute; auto|]). constructor.
Qed.
Example ex_record_blocks : mac_blocks (repeat x00 13) (repeat x00 100) = 9. Proof. reflexivity. Qed.
