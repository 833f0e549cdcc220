(** Proofs for C116 and C117: without the data. *)
From Verif Require Export P_Repeat P_Guess.
From Verif Require Import P_Util.
From Coq Require Import ZifyBool ZifyNat ZifyN.
Local Open Scope list_scope.
Local Open Scope Z_scope.
#[local] Opaque SHA256 HMAC aead_decrypt aead_encrypt aead_seal compute_keys PRF nmul chacha20_block client_read client_write.

Lemma changed_length c e : length (changed c e) = length e.
Proof. unfold changed. rewrite map_length, seq_length. reflexivity. Qed.
Lemma changed_nth c e i : (i < length e)%nat -> nth i (changed c e) x00 = bxor (nth i c x00) (nth i e x00).
Proof.
  intros H. unfold changed. rewrite (nth_indep _ x00 (bxor (nth 0 c x00) (nth 0 e x00))) by (rewrite map_length, seq_length; exact H).
  rewrite (map_nth (fun i => bxor (nth i c x00) (nth i e x00))), seq_nth by exact H. reflexivity.
Qed.
Lemma swapped_changed c p e : swapped c p (changed p e) = changed c e.
Proof.
  unfold swapped. rewrite changed_length. unfold changed at 2. apply map_ext_in. intros i I. apply in_seq in I. rewrite changed_nth by lia.
  rewrite <- bxor_assoc, bxor_cancel_l. reflexivity.
Qed.
(** the second data need not be known: whoever has the point changes what bits they like *)
Theorem client_blind : forall m c key iv k d d2 c1 c2 part, keyed_w m (c_writer c) key iv k -> k + zlen d + zlen d2 < 2 ^ 64 -> legal_fragment d -> legal_fragment d2 -> d <> d2 ->
  client_write m d c = (Err IoFailure, c1) -> client_write m d2 c1 = (Ok (zlen d2), c2) ->
  w_out (c_writer c1) = w_out (c_writer c) ++ part -> (5 + length d <= length part)%nat ->
  exists h1 ct1 t1 h2 ct2 t2, length h1 = 5%nat /\ length h2 = 5%nat /\ length ct1 = length d /\ length ct2 = length d2 /\ (length t1 <= 16)%nat /\ length t2 = 16%nat /\
    part = h1 ++ ct1 ++ t1 /\ w_out (c_writer c2) = w_out (c_writer c) ++ part ++ h2 ++ ct2 ++ t2 /\
    let ad1 := rfc_ad k ApplicationDataTy x03 x03 (zlen ct1) in let ad2 := rfc_ad k ApplicationDataTy x03 x03 (zlen ct2) in
    (forall xs, NoDup xs -> Forall (guess ad1 ct1 t1 ad2 ct2 t2) xs -> Z.of_nat (length xs) <= 256 ^ (16 - zlen t1) * 2 ^ 14) /\
    exists x, guess ad1 ct1 t1 ad2 ct2 t2 x /\ forall t e, (length e <= length d2)%nat ->
      let f := changed ct2 e in sealed_record key iv k t (changed d2 e) = e_record t (f ++ moved x ad2 ct2 t2 (rfc_ad k t x03 x03 (zlen e)) f).
Proof.
  intros m c key iv k d d2 c1 c2 part K R L L' Ne E1 E2 O1 Lp.
  destruct (client_repeats m c key iv k d d2 c1 c2 part K R L L' Ne E1 E2 O1 Lp) as (h1 & ct1 & t1 & h2 & ct2 & t2 & H1 & H2 & C1 & C2 & T1 & T2 & P & O & B & x & G & A).
  exists h1, ct1, t1, h2, ct2, t2. split; [exact H1|]. split; [exact H2|]. split; [exact C1|]. split; [exact C2|]. split; [exact T1|]. split; [exact T2|]. split; [exact P|]. split; [exact O|].
  assert (Z1 : zlen ct1 = zlen d) by (unfold zlen; rewrite C1; reflexivity). assert (Z2 : zlen ct2 = zlen d2) by (unfold zlen; rewrite C2; reflexivity).
  cbv zeta. rewrite Z1, Z2. split; [exact B|]. exists x. split; [exact G|]. intros t e Le.
  pose proof (A t (changed d2 e) ltac:(rewrite changed_length; exact Le)) as X. cbv zeta in X. rewrite swapped_changed in X.
  replace (zlen (changed d2 e)) with (zlen e) in X by (unfold zlen; rewrite changed_length; reflexivity). exact X.
Qed.
(** nor that of the record that was held back *)
Theorem blind_guessed : forall k c t e, legal_fragment e -> (length e <= length c)%nat -> length t = 16%nat -> k + 1 < 2 ^ 64 ->
  exists attempts, Z.of_nat (length attempts) = 2 ^ 106 /\ Forall (fun a => length a = 16%nat) attempts /\
  forall m key iv cl p ns rest, keyed m (c_reader cl) key iv k -> no_pending (c_reader cl) -> c_buf cl = [] ->
    aead_seal key (rfc_nonce iv k) (rfc_ad k ApplicationDataTy x03 x03 (zlen p)) p = c ++ t -> (length attempts <= length ns)%nat ->
    stream (r_src (c_reader cl)) = concat (map (fun a => on_wire (with_tag (changed c e) a)) attempts) ++ rest ->
    exists n c1 c2, (n < length attempts)%nat /\ vain m (firstn n ns) cl c1 /\ client_read m (length e) c1 = (Ok (changed p e), c2).
Proof.
  intros k c t e L Le Lt Bk.
  assert (X : forall p, length p = length c -> tags k p (changed p e) c t = tags k c (changed c e) c t).
  { intros p Lp. unfold tags. rewrite !swapped_changed. unfold zlen. rewrite Lp, !changed_length. reflexivity. }
  exists (tags k c (changed c e) c t). destruct (tags_length k c (changed c e) c t) as (A & B). split; [exact A|]. split; [exact B|].
  intros m key iv cl p ns rest K Np Bf S Ln St. assert (Lp : length p = length c) by (symmetry; apply (seal_split _ _ _ _ _ _ Lt S)).
  rewrite <- (X p Lp) in *. rewrite <- (swapped_changed c p e) in St.
  destruct (tags_work k p (changed p e) c t ltac:(unfold legal_fragment, zlen in *; rewrite changed_length; exact L) ltac:(rewrite changed_length; lia) Lt Bk m key iv cl ns rest K Np Bf S Ln St)
    as (n & c1 & c2 & Hn & V & Rd). rewrite changed_length in Rd. exists n, c1, c2. split; [exact Hn|]. split; [exact V|exact Rd].
Qed.
