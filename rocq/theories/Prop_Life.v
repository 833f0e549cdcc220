(** C93: a whole session, for every stream of bytes. *)
From Verif Require Import Spec_Life P_Util P_Codec P_Client3 P_Client4 P_Accept P_Receive P_Build P_Life.
From Coq Require Import ZifyBool ZifyNat ZifyN.
Local Open Scope list_scope.
Local Open Scope Z_scope.

(** on a working transport, the outcome of construction, the answers to all calls of any application, and the bytes sent from the first to the last, are exactly
    those of the description [lifetime] *)
Theorem C93_session : forall m q s p g x l out, healthy (writer_new p) -> clean s -> zlen (stream s) + 1 < 2 ^ 64 -> 1 + spent q l < 2 ^ 64 ->
  ((exists c, sitting m q s p g = (x, l, c) /\ w_out (c_writer c) = out) <-> lifetime m g q (stream s) x l out).
Proof. exact sitting_iff. Qed.
Print Assumptions C93_session.
(** which has one outcome for every stream *)
Theorem C93_one : forall m g q bs, zlen bs + 1 < 2 ^ 64 -> (forall l, 1 + spent q l < 2 ^ 64) ->
  exists x l out, lifetime m g q bs x l out /\ forall y l' out', lifetime m g q bs y l' out' -> y = x /\ l' = l /\ out' = out.
Proof. exact lifetime_one. Qed.
Print Assumptions C93_one.
(** the same from any point of a connection on *)
Theorem C93_from_here : forall m ks ivs kc ivc q c buf k pend bs j l out,
  has m c ks ivs buf k pend bs /\ k + zlen bs < 2 ^ 64 /\ keyed_w m (c_writer c) kc ivc j /\ healthy (c_writer c) -> j + spent q l < 2 ^ 64 ->
  ((exists c', use m q c = (l, c') /\ w_out (c_writer c') = w_out (c_writer c) ++ out) <-> life ks ivs kc ivc q buf k pend bs j l out).
Proof. exact use_iff. Qed.
Print Assumptions C93_from_here.
(** the example program: for every stream, what it comes to, what it shows and what it sends *)
Theorem C93_example : forall m s p g x shown out, healthy (writer_new p) -> clean s -> zlen (stream s) + 1 < 2 ^ 64 ->
  ((exists c, example m true s p g = (x, shown, c) /\ w_out (c_writer c) = out) <-> showing m g (stream s) x shown out).
Proof. exact showing_iff. Qed.
Print Assumptions C93_example.
(** data has one split into records *)
Theorem C93_parcels : forall d, exists fs, parcels d fs /\ forall fs', parcels d fs' -> fs' = fs.
Proof. exact parcels_one. Qed.
Print Assumptions C93_parcels.

(** an application that says back what it hears: some data, then the end; the connection begins with a started message and odd versions *)
Example ex_parrot : forall m, exists bs ss, lifetime m one_tape (parrot 5 4) bs (Ok tt) [Got (Ok [x61; x62]); Wrote (Ok 2); Got (Ok []); Closed (Ok tt)]
  (stage_out (Complete ss) ++ utters ss 1 ApplicationDataTy [x61; x62] ++ utters ss 2 AlertTy [x02; x00]).
Proof. exact parrot_run. Qed.
Example ex_spent : spent (parrot 5 4) parrot_answers = 3. Proof. reflexivity. Qed.
(** the example program: with data; with a ChangeCipherSpec instead; with no server *)
Example ex_shown : forall m, exists ss before,
  showing m one_tape (before ++ sealed_record (k_server (s_keys ss)) (iv_server (s_keys ss)) 2 ApplicationDataTy [x61; x62]) (Ok tt) (Some (padded (Z.to_nat 4096) [x61; x62]))
    (stage_out (Complete ss) ++ utters ss 1 ApplicationDataTy head_request ++ utters ss 2 AlertTy [x02; x00]) /\
  showing m one_tape (before ++ sealed_record (k_server (s_keys ss)) (iv_server (s_keys ss)) 2 ChangeCipherSpecTy [x01]) Panic None
    (stage_out (Complete ss) ++ utters ss 1 ApplicationDataTy head_request) /\
  showing m one_tape [] Panic None (flight_hello (firstn 32 one_tape)).
Proof. exact showing_run. Qed.
Example ex_parcels : forall f, zlen f = 16384 -> parcels (f ++ [x61]) [f; [x61]].
Proof. intros f L. apply P_full; [exact L|discriminate|]. apply P_last. split; discriminate. Qed.
