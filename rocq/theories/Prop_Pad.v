(** C106: with a key stream nobody knows, the records hide the data; a number used twice gives it away. *)
From Verif Require Import Spec_Pad P_Pad P_Pad2.
Local Open Scope list_scope.
Local Open Scope Z_scope.

(** the cipher of the client is RFC 7539's over ChaCha20's key stream *)
Theorem C106_chacha : forall key nonce aad data, aead_seal key nonce aad data = seal_by (chacha_pad key) nonce aad data.
Proof. exact seal_chacha. Qed.
Print Assumptions C106_chacha.
(** to every key stream that explains a recording by one data there is one that explains it by the other: [turn] takes one to the
    other and back, and leaves alone the keys of the MAC and all other numbers *)
Theorem C106_explained : forall iv k it it' B w, length iv = 12%nat -> evenly it it' -> 0 <= k -> k + zlen it <= 2 ^ 64 ->
  (items_by B iv k it = w <-> items_by (turn iv k it it' B) iv k it' = w).
Proof. exact explained. Qed.
Print Assumptions C106_explained.
Theorem C106_twice : forall iv B n i it k it', turn iv k it it' (turn iv k it it' B) n i = B n i.
Proof. exact turn_twice. Qed.
Print Assumptions C106_twice.
Theorem C106_back : forall iv B n i it k it', evenly it it' -> turn iv k it it' B n i = turn iv k it' it B n i.
Proof. exact turn_back. Qed.
Print Assumptions C106_back.
Theorem C106_else : forall iv B n i it k it', (forall j, k <= j < k + zlen it -> n <> rfc_nonce iv j) \/ (i < 64)%nat -> turn iv k it it' B n i = B n i.
Proof. exact turn_else. Qed.
Print Assumptions C106_else.
(** the client: two histories of calls with data of the same lengths, all of them successful *)
Theorem C106_hidden : forall m s p g c l l' as_ c1 as' c2, client_new m s p g = (Ok tt, c) -> 1 + cost l < 2 ^ 64 -> same_size l l' ->
  calls m l c = (as_, c1) -> Forall2 good_answer l as_ -> calls m l' c = (as', c2) -> Forall2 good_answer l' as' ->
  exists ss it it', reached m s g (Complete ss) /\ issues l it /\ issues l' it' /\
    let key := k_client (s_keys ss) in let B := turn (iv_client (s_keys ss)) 1 it it' (chacha_pad key) in
    w_out (c_writer c1) = uttering ss (chacha_pad key) it /\ w_out (c_writer c2) = uttering ss (chacha_pad key) it' /\
    uttering ss B it' = w_out (c_writer c1) /\ uttering ss B it = w_out (c_writer c2) /\ forall n i, (i < 64)%nat -> B n i = chacha_pad key n i.
Proof. exact hidden. Qed.
Print Assumptions C106_hidden.
(** without success it is false: two records under one number show the difference of their data, whatever the key stream *)
Theorem C106_reused : forall B n a a' d d' i, (i < length d)%nat -> (i < length d')%nat ->
  bxor (nth i (seal_by B n a d) x00) (nth i (seal_by B n a' d') x00) = bxor (nth i d x00) (nth i d' x00).
Proof. exact reused. Qed.
Print Assumptions C106_reused.
(** and [close] after a write that failed is such a record, with two known bytes: anyone who sees the wire has the first two bytes of the data *)
Theorem C106_close_reveals : forall m c key iv k d c1 c2, keyed_w m (c_writer c) key iv k -> k + zlen d + 1 < 2 ^ 64 -> legal_fragment d ->
  client_write m d c = (Err IoFailure, c1) -> client_close m c1 = (Ok tt, c2) ->
  exists part h, w_out (c_writer c2) = w_out (c_writer c) ++ part ++ e_record AlertTy h /\ zlen h = 18 /\
    forall i, (i < 2)%nat -> (i < length d)%nat -> (5 + i < length part)%nat ->
      nth i d x00 = bxor (bxor (nth (5 + i) part x00) (nth i h x00)) (nth i [x02; x00] x00).
Proof. exact close_reveals. Qed.
Print Assumptions C106_close_reveals.
Theorem C106_any_transport_refuted : exists m s p g c d c1 c2 before part h, client_new m s p g = (Ok tt, c) /\ client_write m d c = (Err IoFailure, c1) /\ client_close m c1 = (Ok tt, c2) /\
  w_out (c_writer c2) = before ++ part ++ e_record AlertTy h /\ before = w_out (c_writer c) /\ (7 <= length part)%nat /\
  firstn 2 d = [bxor (bxor (nth 5 part x00) (nth 0 h x00)) x02; bxor (nth 6 part x00) (nth 1 h x00)] /\ (2 < length d)%nat.
Proof. exact reveals_first. Qed.
Print Assumptions C106_any_transport_refuted.

(** the hypotheses of [C106_hidden] *)
Example ex_hidden : forall m, exists s g c as_ c1 as' c2, let l := [Write [x61; x62; x63]; Close] in let l' := [Write [x78; x79; x7a]; Close] in
  client_new m s [] g = (Ok tt, c) /\ 1 + cost l < 2 ^ 64 /\ same_size l l' /\ calls m l c = (as_, c1) /\ Forall2 good_answer l as_ /\ calls m l' c = (as', c2) /\ Forall2 good_answer l' as'.
Proof. exact hidden_case. Qed.
Example ex_turn : let B := turn (repeat x00 12) 1 [(ApplicationDataTy, [x61])] [(ApplicationDataTy, [x62])] (fun _ _ => x10) in
  B (rfc_nonce (repeat x00 12) 1) 64%nat = x13 /\ B (rfc_nonce (repeat x00 12) 1) 65%nat = x10 /\ B (rfc_nonce (repeat x00 12) 2) 64%nat = x10.
Proof. repeat split; vm_compute; reflexivity. Qed.
