(** C98: [read_exact] and [read_to_end] on transports whose reads fail. *)
From Verif Require Import Spec_Loop P_Util P_Codec P_Client3 P_Client4 P_Accept P_Receive P_Build P_Std P_Life P_Broken P_Loop.
From Coq Require Import ZifyBool ZifyNat ZifyN.
Local Open Scope list_scope.
Local Open Scope Z_scope.

(** whatever the reads of the transport do, the answer of [read_exact] and what is left are those of the description *)
Theorem C98_read_exact : forall m c key iv n buf k pend bs x buf' k' pend' bs', standing m c key iv buf k pend bs -> k + zlen (concat bs) < 2 ^ 64 ->
  (fulfils key iv n [] buf k pend bs x buf' k' pend' bs' <-> exists c', read_exact m n c = (x, c') /\ standing m c' key iv buf' k' pend' bs').
Proof. exact fulfils_iff. Qed.
Print Assumptions C98_read_exact.
(** and so are those of [read_to_end], for any choice of buffers *)
Theorem C98_read_to_end : forall m c key iv sz buf k pend bs x buf' k' pend' bs', standing m c key iv buf k pend bs -> k + zlen (concat bs) < 2 ^ 64 ->
  (exhausts key iv sz 0 [] buf k pend bs x buf' k' pend' bs' <-> exists c', to_end m sz 0 [] c x c' /\ standing m c' key iv buf' k' pend' bs').
Proof. exact exhausts_iff. Qed.
Print Assumptions C98_read_to_end.
(** which has one outcome *)
Theorem C98_one : forall m c key iv sz buf k pend bs, standing m c key iv buf k pend bs -> k + zlen (concat bs) < 2 ^ 64 ->
  exists x buf' k' pend' bs', exhausts key iv sz 0 [] buf k pend bs x buf' k' pend' bs' /\
    forall y buf2 k2 pend2 bs2, exhausts key iv sz 0 [] buf k pend bs y buf2 k2 pend2 bs2 -> y = x /\ buf2 = buf' /\ k2 = k' /\ pend2 = pend' /\ bs2 = bs'.
Proof. exact exhausts_one. Qed.
Print Assumptions C98_one.
(** a failure in the middle of what is asked for is not noticed *)
Theorem C98_bridges : forall m c key iv k pend d1 d2, standing m c key iv [] k pend (two_records key iv k d1 d2) -> incomplete pend -> d1 <> [] -> d2 <> [] -> zlen d1 <= 16384 -> zlen d2 <= 16384 -> k + 65536 < 2 ^ 64 ->
  exists c', read_exact m (length (d1 ++ d2)) c = (Ok (Filled (d1 ++ d2)), c').
Proof. exact exact_bridges. Qed.
Print Assumptions C98_bridges.
(** one in front of it is reported as the end of the data *)
Theorem C98_pauses : forall m c key iv k pend b l n, standing m c key iv [] k pend ([] :: b :: l) -> k < 2 ^ 64 -> incomplete pend -> (0 < n)%nat ->
  exists c', read_exact m n c = (Ok (UnexpectedEof []), c') /\ standing m c' key iv [] k pend (b :: l).
Proof. exact exact_pauses. Qed.
Print Assumptions C98_pauses.
(** [read_to_end] goes on over a failure if it had room to spare, *)
Theorem C98_goes_on : forall m c key iv k pend d1 d2 sz, standing m c key iv [] k pend (two_records key iv k d1 d2) -> incomplete pend -> d1 <> [] -> d2 <> [] -> zlen d1 <= 16384 -> zlen d2 <= 16384 -> k + 65536 < 2 ^ 64 ->
  (length d1 <= sz 0)%nat -> (length d2 <= sz 1)%nat -> exists c', to_end m sz 0 [] c (Ok (d1 ++ d2)) c'.
Proof. exact end_bridges. Qed.
Print Assumptions C98_goes_on.
(** and stops there if the data had just filled the room *)
Theorem C98_stops : forall m c key iv k pend d1 d2 sz, standing m c key iv [] k pend (two_records key iv k d1 d2) -> incomplete pend -> d1 <> [] -> zlen d1 <= 16384 -> zlen d2 <= 16384 -> k + 65536 < 2 ^ 64 ->
  S (sz 0%nat) = length d1 -> exists c', to_end m sz 0 [] c (Ok d1) c'.
Proof. exact end_stops. Qed.
Print Assumptions C98_stops.
(** so what [read_to_end] brings depends on the buffers it happens to use *)
Theorem C98_room_refuted : exists m c sz1 sz2 key iv k d1 d2 c1 c2, standing m c key iv [] k [] (two_records key iv k d1 d2) /\ d2 <> [] /\
  to_end m sz1 0 [] c (Ok d1) c1 /\ to_end m sz2 0 [] c (Ok (d1 ++ d2)) c2.
Proof. exact room_matters. Qed.
Print Assumptions C98_room_refuted.

Example ex_two_stands : forall m, standing m (two_client m [x61; x62] [x63]) (repeat x00 32) (repeat x00 12) [] 0 [] (two_records (repeat x00 32) (repeat x00 12) 0 [x61; x62] [x63]) /\
  incomplete [] /\ zlen (concat (two_records (repeat x00 32) (repeat x00 12) 0 [x61; x62] [x63])) = 45.
Proof. intros m. split; [apply two_stands|]. split; [apply none_iff; reflexivity|]. rewrite two_room. reflexivity. Qed.
Example ex_two_read : forall m, exists c, read_exact m 3 (two_client m [x61; x62] [x63]) = (Ok (Filled [x61; x62; x63]), c).
Proof. intros m. apply (exact_bridges m _ _ _ _ _ [x61; x62] [x63] (two_stands m _ _)); first [exact none_nil|reflexivity|discriminate]. Qed.
