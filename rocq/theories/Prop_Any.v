(** C96: transports that may fail at any read and at any write. *)
From Verif Require Import Spec_Any P_Util P_Codec P_Client3 P_Client4 P_Accept P_Receive P_Build P_Life P_Broken P_Any.
From Coq Require Import ZifyBool ZifyNat ZifyN.
Local Open Scope list_scope.
Local Open Scope Z_scope.

(** whatever the reads and the writes of the transport do: the outcome of construction, the answers to all calls of any application, and the bytes the transport takes, are exactly those of the description *)
Theorem C96_session : forall m q s p g x l out, zlen (concat (stretches s)) + 1 < 2 ^ 64 -> 1 + spent q l < 2 ^ 64 ->
  ((exists c, sitting m q s p g = (x, l, c) /\ w_out (c_writer c) = out) <-> fate m g q (stretches s) p x l out).
Proof. exact fate_iff. Qed.
Print Assumptions C96_session.
(** of construction alone, *)
Theorem C96_construction : forall m s p g x out, zlen (stream s) < 2 ^ 64 ->
  ((exists c, client_new m s p g = (x, c) /\ w_out (c_writer c) = out) <-> venture m g (stream s) p x out).
Proof. exact venture_iff. Qed.
Print Assumptions C96_construction.
(** and from any point of a connection on *)
Theorem C96_from_here : forall m ks ivs kc ivc q c buf k pend bs j p l out,
  standing m c ks ivs buf k pend bs /\ k + zlen (concat bs) < 2 ^ 64 /\ keyed_w m (c_writer c) kc ivc j /\ w_plan (c_writer c) = p -> j + spent q l < 2 ^ 64 ->
  ((exists c', use m q c = (l, c') /\ w_out (c_writer c') = w_out (c_writer c) ++ out) <-> fortune ks ivs kc ivc q buf k pend bs j p l out).
Proof. exact fortune_iff. Qed.
Print Assumptions C96_from_here.
(** there is one outcome of construction *)
Theorem C96_one : forall m g b p x out x2 out2, zlen b < 2 ^ 64 -> venture m g b p x out -> venture m g b p x2 out2 -> x2 = x /\ out2 = out.
Proof. exact venture_one. Qed.
Print Assumptions C96_one.
(** on a transport whose writes succeed it is that of C95 *)
Theorem C96_working : forall m g q bs p x l out, bs <> [] -> healthy (writer_new p) -> zlen (concat bs) + 1 < 2 ^ 64 -> 1 + spent q l < 2 ^ 64 ->
  (fate m g q bs p x l out <-> lifespan m g q bs x l out).
Proof. exact fate_healthy. Qed.
Print Assumptions C96_working.
(** a transport that fails takes a first part of what would have been sent; the error is then that of the transport, whatever the server did wrong *)
Theorem C96_first_part : forall m g b p x out, venture m g b p x out ->
  exists y st unsent, building m g b y st /\ all_sent y st = out ++ unsent /\ (x = y /\ unsent = [] \/ x = Err IoFailure).
Proof. exact venture_prefix. Qed.
Print Assumptions C96_first_part.
(** a write either succeeds, or breaks off in one record: those before it are sent and used up their numbers, of it a first part, and its number is used again *)
Theorem C96_break : forall m c key iv k d, keyed_w m (c_writer c) key iv k -> k + zlen d < 2 ^ 64 -> forall x c1, client_write m d c = (x, c1) -> x = Ok (zlen d) \/
  x = Err IoFailure /\ exists a f b part unsent, parcels d (a ++ f :: b) /\ w_out (c_writer c1) = w_out (c_writer c) ++ sealed_stream key iv k ApplicationDataTy a ++ part /\
    keyed_w m (c_writer c1) key iv (k + zlen a) /\ sealed_record key iv (k + zlen a) ApplicationDataTy f = part ++ unsent.
Proof. exact write_breaks. Qed.
Print Assumptions C96_break.
(** if nothing was taken, the write can be repeated *)
Theorem C96_clean_retry : forall m c key iv k d p, keyed_w m (c_writer c) key iv k -> w_plan (c_writer c) = WFail 0 :: p -> d <> [] -> k + zlen d < 2 ^ 64 ->
  exists c1, client_write m d c = (Err IoFailure, c1) /\ w_out (c_writer c1) = w_out (c_writer c) /\ keyed_w m (c_writer c1) key iv k /\ w_plan (c_writer c1) = p.
Proof. exact clean_retry. Qed.
Print Assumptions C96_clean_retry.
(** otherwise not: the write is repeated, it succeeds, and the peer never sees the data *)
Theorem C96_retry_refuted : exists m n c c1 c2 peer key iv k d, keyed_w m (c_writer c) key iv k /\ w_out (c_writer c) = [] /\ (0 < length d < n)%nat /\
  client_write m d c = (Err IoFailure, c1) /\ client_write m d c1 = (Ok (zlen d), c2) /\ standing m peer key iv [] k [] [w_out (c_writer c2)] /\
  forall j, Forall (eq (Ok [])) (tries m n j peer).
Proof. exact retry_lost. Qed.
Print Assumptions C96_retry_refuted.
(** the example program on any transport: what it comes to, what it shows and what it sends *)
Theorem C96_example : forall m s p g x shown out, zlen (concat (stretches s)) + 1 < 2 ^ 64 ->
  ((exists c, example m true s p g = (x, shown, c) /\ w_out (c_writer c) = out) <-> exists y l, fate m g example_calls (stretches s) p y l out /\ (x, shown) = told y l).
Proof. exact example_fate. Qed.
Print Assumptions C96_example.

(** the transport takes one byte *)
Example ex_hello_lost : forall m, fate m one_tape Quit [[]] [WFail 3] (Err IoFailure) [] [x16]. Proof. exact hello_lost. Qed.
(** the alert is cut off, and with it the reason; and it is not *)
Example ex_alert_lost : forall m, fate m one_tape Quit [[xff]] [WOk; WOk; WOk; WOk; WOk; WFail 1] (Err IoFailure) [] (flight_hello (firstn 32 one_tape) ++ [x15]) /\
  fate m one_tape Quit [[xff]] [WOk; WOk; WOk; WOk; WOk] (Err UnexpectedMessage) [] (flight_hello (firstn 32 one_tape) ++ [x15; x03; x03; x00; x02; x02; x0a]).
Proof. exact alert_lost. Qed.
(** an application that writes again *)
Example ex_written_twice : forall ks ivs kc ivc k pend bs j,
  fortune ks ivs kc ivc (Do (Write [x61]) (fun a => match a with Wrote (Err _) => Do (Write [x61]) (fun _ => Quit) | _ => Quit end)) [] k pend bs j [WOk; WFail 0]
  [Wrote (Err IoFailure); Wrote (Ok 1)] ([x17] ++ sealed_record kc ivc j ApplicationDataTy [x61]).
Proof. exact written_twice. Qed.
Example ex_given_out : given_out [WOk; WFail 1; WFail 5] [[x61; x62]; []; [x63; x64]; [x65]] = (false, [x61; x62; x63], [WFail 5]) /\ given_out [WOk] [[x61]; [x62]] = (true, [x61; x62], []).
Proof. split; reflexivity. Qed.
Example ex_example_lost : forall m, fate m one_tape example_calls [[]] [WFail 3] (Err IoFailure) [] [x16] /\ told (Err IoFailure) [] = (Panic, None) /\
  told (Ok tt) [Wrote (Ok 21); Got (Ok [x61]); Closed (Err IoFailure)] = (Panic, Some (padded (Z.to_nat 4096) [x61])) /\
  told (Ok tt) [Wrote (Ok 21); Got (Ok [x61]); Closed (Ok tt)] = (Ok tt, Some (padded (Z.to_nat 4096) [x61])) /\ told (Ok tt) [Wrote (Err IoFailure)] = (Panic, None).
Proof. intros m. split; [exact (example_hello_lost m)|]. repeat split; reflexivity. Qed.
