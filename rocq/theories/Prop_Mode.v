(** C83: debug and release builds of the crate. *)
From Verif Require Import Spec_Mode P_Util P_P256X P_Client4 P_Mode P_Mode2.
From Coq Require Import ZifyBool ZifyNat ZifyN.
Local Open Scope list_scope.
Local Open Scope Z_scope.

(** ** C83 *)
(** whatever the transport and the random source do: a construction that does not panic in a debug build goes the same
    way in a release build, down to the bytes sent, the randomness used and the state kept *)
Theorem C83_construction : forall s p g x c, client_new Debug s p g = (x, c) -> x <> Panic ->
  exists c', client_new Release s p g = (x, c') /\ seen c' = seen c.
Proof. exact builds_new. Qed.
Print Assumptions C83_construction.
(** from then on the builds give the same answers to every history of calls, panics included, until a record counter has run out *)
Theorem C83_histories : forall s p g c, client_new Debug s p g = (Ok tt, c) -> exists c', client_new Release s p g = (Ok tt, c') /\ seen c' = seen c /\
  forall l, let (xs, d) := api_run Debug l c in let (ys, d') := api_run Release l c' in
    (xs = ys /\ (seen d = seen d' \/ In Panic xs)) \/
    (run_out d /\ exists us vs, xs = us ++ [Panic] /\ ys = us ++ vs).
Proof. exact builds_history. Qed.
Print Assumptions C83_histories.
(** the function behind the one difference during construction *)
Theorem C83_decoding : forall data, from_uncompressed_bytes Debug data = Panic \/ from_uncompressed_bytes Debug data = from_uncompressed_bytes Release data.
Proof. exact dle_decode. Qed.
Print Assumptions C83_decoding.

(** there are constructions that do not panic, and histories *)
Example ex_built : exists s g c, client_new Debug s [] g = (Ok tt, c).
Proof. destruct (plain_run Debug (fun _ => [])) as (s & g & ss & c & E & _). exists s, g, c. exact E. Qed.
Example ex_built_fails : fst (client_new Debug [] [] (repeat x07 32)) = Err IoFailure /\ fst (client_new Release [] [] (repeat x07 32)) = Err IoFailure.
Proof. split; vm_compute; reflexivity. Qed.
(** the builds do differ: on a point off the curve, and at the end of a counter *)
Example ex_differ : exists data, from_uncompressed_bytes Debug data = Panic /\ exists r, from_uncompressed_bytes Release data = Ok r.
Proof. destruct panic_refuted as [data E]. exists data. split; [exact E|apply decode_release_total]. Qed.
Definition full_count : client := Client (reader_new []) (Writer [] [] None (2 ^ 64 - 1) None []) [] [].
Example ex_run_out : run_out full_count /\ fst (api_run Debug [A_writer OpCcs; A_flush] full_count) = [Panic] /\
  fst (api_run Release [A_writer OpCcs; A_flush] full_count) = [Ok V_done; Ok V_done].
Proof. split; [left; reflexivity|split; vm_compute; reflexivity]. Qed.
