(** C116: what a record number that is used twice gives away. *)
From Verif Require Import Spec_Any Spec_Repeat P_Forge P_Repeat P_Repeat2 P_Repeat3.
From Coq Require Import ZifyBool ZifyNat ZifyN.
Local Open Scope list_scope.
Local Open Scope Z_scope.

(** ** C116 *)
(** two ciphertexts under one key and nonce, with the tag of the second and the beginning of that of the first, are explained by few points *)
Theorem C116_few_points : forall ad1 c1 t1 ad2 c2 t2 xs, (ad1, c1) <> (ad2, c2) -> zlen ad1 < 2 ^ 64 -> zlen c1 < 2 ^ 64 -> zlen ad2 < 2 ^ 64 -> zlen c2 < 2 ^ 64 ->
  (length t1 <= 16)%nat -> length t2 = 16%nat -> NoDup xs -> Forall (guess ad1 c1 t1 ad2 c2 t2) xs ->
  Z.of_nat (length xs) <= 256 ^ (16 - zlen t1) * (8 * Z.max (mac_blocks ad1 c1) (mac_blocks ad2 c2)).
Proof. exact few_points. Qed.
Print Assumptions C116_few_points.
(** one of these is that of the key; whoever has it and the second data seals any data that is not longer *)
Theorem C116_anyone_seals : forall key nonce ad1 p1 c1 t1 u ad2 p2 c2 t2, length (t1 ++ u) = 16%nat -> length t2 = 16%nat ->
  aead_seal key nonce ad1 p1 = c1 ++ t1 ++ u -> aead_seal key nonce ad2 p2 = c2 ++ t2 ->
  exists x, guess ad1 c1 t1 ad2 c2 t2 x /\ forall ad' p', (length p' <= length p2)%nat ->
    aead_seal key nonce ad' p' = swapped c2 p2 p' ++ moved x ad2 c2 t2 ad' (swapped c2 p2 p').
Proof. exact anyone_seals. Qed.
Print Assumptions C116_anyone_seals.
(** so for a client whose write failed after the ciphertext was out, and which was then asked to write something else *)
Theorem C116_client : forall m c key iv k d d2 c1 c2 part, keyed_w m (c_writer c) key iv k -> k + zlen d + zlen d2 < 2 ^ 64 -> legal_fragment d -> legal_fragment d2 -> d <> d2 ->
  client_write m d c = (Err IoFailure, c1) -> client_write m d2 c1 = (Ok (zlen d2), c2) ->
  w_out (c_writer c1) = w_out (c_writer c) ++ part -> (5 + length d <= length part)%nat ->
  exists h1 ct1 t1 h2 ct2 t2, length h1 = 5%nat /\ length h2 = 5%nat /\ length ct1 = length d /\ length ct2 = length d2 /\ (length t1 <= 16)%nat /\ length t2 = 16%nat /\
    part = h1 ++ ct1 ++ t1 /\ w_out (c_writer c2) = w_out (c_writer c) ++ part ++ h2 ++ ct2 ++ t2 /\
    let ad1 := rfc_ad k ApplicationDataTy x03 x03 (zlen d) in let ad2 := rfc_ad k ApplicationDataTy x03 x03 (zlen d2) in
    (forall xs, NoDup xs -> Forall (guess ad1 ct1 t1 ad2 ct2 t2) xs -> Z.of_nat (length xs) <= 256 ^ (16 - zlen t1) * 2 ^ 14) /\
    exists x, guess ad1 ct1 t1 ad2 ct2 t2 x /\ forall t p, (length p <= length d2)%nat ->
      let f := swapped ct2 d2 p in sealed_record key iv k t p = e_record t (f ++ moved x ad2 ct2 t2 (rfc_ad k t x03 x03 (zlen p)) f).
Proof. exact client_repeats. Qed.
Print Assumptions C116_client.
(** nobody need know the second data: with the point, what is on the wire is changed bit by bit *)
Theorem C116_blind : forall m c key iv k d d2 c1 c2 part, keyed_w m (c_writer c) key iv k -> k + zlen d + zlen d2 < 2 ^ 64 -> legal_fragment d -> legal_fragment d2 -> d <> d2 ->
  client_write m d c = (Err IoFailure, c1) -> client_write m d2 c1 = (Ok (zlen d2), c2) ->
  w_out (c_writer c1) = w_out (c_writer c) ++ part -> (5 + length d <= length part)%nat ->
  exists h1 ct1 t1 h2 ct2 t2, length h1 = 5%nat /\ length h2 = 5%nat /\ length ct1 = length d /\ length ct2 = length d2 /\ (length t1 <= 16)%nat /\ length t2 = 16%nat /\
    part = h1 ++ ct1 ++ t1 /\ w_out (c_writer c2) = w_out (c_writer c) ++ part ++ h2 ++ ct2 ++ t2 /\
    let ad1 := rfc_ad k ApplicationDataTy x03 x03 (zlen ct1) in let ad2 := rfc_ad k ApplicationDataTy x03 x03 (zlen ct2) in
    (forall xs, NoDup xs -> Forall (guess ad1 ct1 t1 ad2 ct2 t2) xs -> Z.of_nat (length xs) <= 256 ^ (16 - zlen t1) * 2 ^ 14) /\
    exists x, guess ad1 ct1 t1 ad2 ct2 t2 x /\ forall t e, (length e <= length d2)%nat ->
      let f := changed ct2 e in sealed_record key iv k t (changed d2 e) = e_record t (f ++ moved x ad2 ct2 t2 (rfc_ad k t x03 x03 (zlen e)) f).
Proof. exact client_blind. Qed.
Print Assumptions C116_blind.
(** or closed: then the data of the second record is known to all, and two bytes in the client's name take nothing but the wire *)
Theorem C116_close : forall m c key iv k d c1 c2 part, keyed_w m (c_writer c) key iv k -> k + zlen d + 1 < 2 ^ 64 -> legal_fragment d ->
  client_write m d c = (Err IoFailure, c1) -> client_close m c1 = (Ok tt, c2) ->
  w_out (c_writer c1) = w_out (c_writer c) ++ part -> (5 + length d <= length part)%nat ->
  exists h1 ct1 t1 h2 ct2 t2, length h1 = 5%nat /\ length h2 = 5%nat /\ length ct1 = length d /\ length ct2 = 2%nat /\ (length t1 <= 16)%nat /\ length t2 = 16%nat /\
    part = h1 ++ ct1 ++ t1 /\ w_out (c_writer c2) = w_out (c_writer c) ++ part ++ h2 ++ ct2 ++ t2 /\
    let ad1 := rfc_ad k ApplicationDataTy x03 x03 (zlen d) in let ad2 := rfc_ad k AlertTy x03 x03 2 in
    (forall xs, NoDup xs -> Forall (guess ad1 ct1 t1 ad2 ct2 t2) xs -> Z.of_nat (length xs) <= 256 ^ (16 - zlen t1) * 2 ^ 14) /\
    exists x, guess ad1 ct1 t1 ad2 ct2 t2 x /\ forall t p, (length p <= 2)%nat ->
      let f := swapped ct2 [x02; x00] p in sealed_record key iv k t p = e_record t (f ++ moved x ad2 ct2 t2 (rfc_ad k t x03 x03 (zlen p)) f).
Proof. exact close_repeats. Qed.
Print Assumptions C116_close.
(** as property, refuted: that nobody but the client makes a record that is sealed under its key. Here the last byte of a record was lost; of at most [2^22] records that can be made from the bytes on the wire and the second data, one is sealed *)
Theorem C116_unforgeable_refuted : exists m s p g c d d2 c1 c2 key iv h1 ct1 t1 h2 ct2 t2, client_new m s p g = (Ok tt, c) /\ keyed_w m (c_writer c) key iv 1 /\
  client_write m d c = (Err IoFailure, c1) /\ client_write m d2 c1 = (Ok (zlen d2), c2) /\ length h1 = 5%nat /\ length h2 = 5%nat /\ length ct1 = length d /\ length ct2 = length d2 /\
  w_out (c_writer c1) = w_out (c_writer c) ++ h1 ++ ct1 ++ t1 /\ w_out (c_writer c2) = w_out (c_writer c1) ++ h2 ++ ct2 ++ t2 /\
  let ad1 := rfc_ad 1 ApplicationDataTy x03 x03 (zlen d) in let ad2 := rfc_ad 1 ApplicationDataTy x03 x03 (zlen d2) in
  (forall xs, NoDup xs -> Forall (guess ad1 ct1 t1 ad2 ct2 t2) xs -> Z.of_nat (length xs) <= 2 ^ 22) /\
  exists x p', guess ad1 ct1 t1 ad2 ct2 t2 x /\ p' <> d /\ p' <> d2 /\ p' <> [] /\ let f := swapped ct2 d2 p' in
    sealed_record key iv 1 ApplicationDataTy p' = e_record ApplicationDataTy (f ++ moved x ad2 ct2 t2 (rfc_ad 1 ApplicationDataTy x03 x03 (zlen p')) f).
Proof. exact forged_record. Qed.
Print Assumptions C116_unforgeable_refuted.

(** ** Examples *)
(** the hypotheses of [C116_few_points] *)
Example ex_guess : ([x07], [x01]) <> ([x07], [x02]) /\ NoDup [0] /\ Forall (guess [x07] [x01] (repeat x2a 15) [x07] [x02] (repeat x2a 16)) [0].
Proof.
  split; [discriminate|]. split; [constructor; [intros []|constructor]|]. constructor; [|constructor]. split; [split; [discriminate|reflexivity]|]. vm_compute. reflexivity.
Qed.
(** those of [C116_client]; the last byte of the tag is missing *)
Example ex_last_byte : exists m s p g c c1 c2 key iv part, let d := [x61; x62; x63] in let d2 := [x78; x79; x7a] in client_new m s p g = (Ok tt, c) /\ keyed_w m (c_writer c) key iv 1 /\
  client_write m d c = (Err IoFailure, c1) /\ client_write m d2 c1 = (Ok 3, c2) /\ w_out (c_writer c1) = w_out (c_writer c) ++ part /\ length part = 23%nat.
Proof. exact last_byte_lost. Qed.
(** those of [C116_close] *)
Example ex_closed : exists m s p g c c1 c2 key iv part, let d := [x61; x62; x63] in client_new m s p g = (Ok tt, c) /\ keyed_w m (c_writer c) key iv 1 /\
  client_write m d c = (Err IoFailure, c1) /\ client_close m c1 = (Ok tt, c2) /\ w_out (c_writer c1) = w_out (c_writer c) ++ part /\ length part = 23%nat.
Proof. exact lost_then_closed. Qed.
Example ex_changed : changed [x61; x62; x63] [x10; x00] = [x71; x62].
Proof. reflexivity. Qed.
