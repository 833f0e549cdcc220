(** C99: sequence numbers beyond 2^64. *)
From Verif Require Import Spec_Wrap P_Util P_Client P_App P_Life P_Wrap.
From Coq Require Import ZifyBool ZifyNat ZifyN.
Local Open Scope list_scope.
Local Open Scope Z_scope.

(** Release: any number of writes, of any length, all succeed; the numbers of the records go on from 0 after 2^64 - 1 *)
Theorem C99_release : forall key iv ds fss, Forall2 parcels ds fss -> forall k c, keyed_w Release (c_writer c) key iv k -> k < 2 ^ 64 -> healthy (c_writer c) ->
  exists c', writing Release ds c = (Ok tt, c') /\ w_out (c_writer c') = w_out (c_writer c) ++ cyclic key iv k ApplicationDataTy (concat fss) /\
    keyed_w Release (c_writer c') key iv ((k + zlen (concat fss)) mod 2 ^ 64) /\ healthy (c_writer c').
Proof. exact release_wraps. Qed.
Print Assumptions C99_release.
(** Debug: the record numbered 2^64 - 1 is sent, and then the call panics *)
Theorem C99_debug : forall key iv ds fss, Forall2 parcels ds fss -> forall k c, keyed_w Debug (c_writer c) key iv k -> k < 2 ^ 64 -> healthy (c_writer c) ->
  exists c', writing Debug ds c = ((if k + zlen (concat fss) <? 2 ^ 64 then Ok tt else Panic), c') /\
    w_out (c_writer c') = w_out (c_writer c) ++ sealed_stream key iv k ApplicationDataTy (firstn (Z.to_nat (2 ^ 64 - k)) (concat fss)).
Proof. exact debug_stops. Qed.
Print Assumptions C99_debug.
(** up to there no number is used twice *)
Theorem C99_before : forall key iv t fs k, 0 <= k -> k + zlen fs <= 2 ^ 64 -> cyclic key iv k t fs = sealed_stream key iv k t fs.
Proof. intros key iv t fs. exact (cyclic_sealed key iv t fs). Qed.
Print Assumptions C99_before.
(** Release: after 2^64 records the key and the number of the first one seal another *)
Theorem C99_again : forall key iv k c ds f g, keyed_w Release (c_writer c) key iv k -> k < 2 ^ 64 -> healthy (c_writer c) ->
  Forall legal_fragment ds -> legal_fragment f -> legal_fragment g -> 1 + zlen ds = 2 ^ 64 ->
  exists c', writing Release (f :: ds ++ [g]) c = (Ok tt, c') /\
    w_out (c_writer c') = w_out (c_writer c) ++ sealed_record key iv k ApplicationDataTy f ++ cyclic key iv (k + 1) ApplicationDataTy ds ++ sealed_record key iv k ApplicationDataTy g.
Proof. exact number_again. Qed.
Print Assumptions C99_again.
Theorem C99_reuse_refuted : exists key iv k c f g ds mid c', keyed_w Release (c_writer c) key iv k /\ f <> g /\
  writing Release (f :: ds ++ [g]) c = (Ok tt, c') /\
  w_out (c_writer c') = w_out (c_writer c) ++ sealed_record key iv k ApplicationDataTy f ++ mid ++ sealed_record key iv k ApplicationDataTy g.
Proof. exact reuse_happens. Qed.
Print Assumptions C99_reuse_refuted.
(** Release: any number of records is received under such numbers *)
Theorem C99_read_release : forall key iv fs, Forall (fun f => zlen f <= 16384) fs -> forall r k rest, keyed Release r key iv k -> k < 2 ^ 64 -> no_pending r ->
  stream (r_src r) = cyclic key iv k ApplicationDataTy fs ++ rest ->
  exists r', taking Release (length fs) r = (Ok fs, r') /\ keyed Release r' key iv ((k + zlen fs) mod 2 ^ 64) /\ no_pending r' /\ stream (r_src r') = rest.
Proof. exact read_release. Qed.
Print Assumptions C99_read_release.
(** Debug: receiving the record numbered 2^64 - 1 panics; its data is lost *)
Theorem C99_read_debug : forall key iv fs, Forall (fun f => zlen f <= 16384) fs -> forall r k rest, keyed Debug r key iv k -> k < 2 ^ 64 -> no_pending r ->
  stream (r_src r) = sealed_stream key iv k ApplicationDataTy fs ++ rest -> k + zlen fs = 2 ^ 64 ->
  exists r', taking Debug (length fs) r = (Panic, r').
Proof. exact read_debug. Qed.
Print Assumptions C99_read_debug.
(** Release: after 2^64 records the bytes of the first are accepted once more *)
Theorem C99_replay_refuted : exists key iv k r f fs old mid r', keyed Release r key iv k /\ stream (r_src r) = old ++ mid ++ old /\ 0 < zlen old /\
  taking Release (length (f :: fs ++ [f])) r = (Ok (f :: fs ++ [f]), r').
Proof. exact replay_happens. Qed.
Print Assumptions C99_replay_refuted.

(** two records across the end of the numbers: sent, *)
Example ex_wrap_release : exists c', writing Release [[x61]; [x62]] (ready_client Release (2 ^ 64 - 1)) = (Ok tt, c') /\
  w_out (c_writer c') = sealed_record (repeat x00 32) (repeat x00 12) 18446744073709551615 ApplicationDataTy [x61] ++ sealed_record (repeat x00 32) (repeat x00 12) 0 ApplicationDataTy [x62].
Proof.
  destruct (ready_keyed_w Release (2 ^ 64 - 1) ltac:(discriminate)) as [K H].
  destruct (release_wraps _ _ [[x61]; [x62]] [[[x61]]; [[x62]]] (parcels_each [[x61]; [x62]] ltac:(repeat (apply Forall_cons || apply Forall_nil); split; discriminate)) _ (ready_client Release (2 ^ 64 - 1)) K eq_refl H) as (c' & E & O & _).
  exists c'. split; [exact E|]. rewrite O. cbn [concat app cyclic c_writer ready_client ready_writer w_out]. rewrite app_nil_r. reflexivity.
Qed.
Example ex_wrap_debug : exists c', writing Debug [[x61]; [x62]] (ready_client Debug (2 ^ 64 - 1)) = (Panic, c') /\
  w_out (c_writer c') = sealed_record (repeat x00 32) (repeat x00 12) 18446744073709551615 ApplicationDataTy [x61].
Proof.
  destruct (ready_keyed_w Debug (2 ^ 64 - 1) ltac:(discriminate)) as [K H].
  destruct (debug_stops _ _ [[x61]; [x62]] [[[x61]]; [[x62]]] (parcels_each [[x61]; [x62]] ltac:(repeat (apply Forall_cons || apply Forall_nil); split; discriminate)) _ (ready_client Debug (2 ^ 64 - 1)) K eq_refl H) as (c' & E & O).
  exists c'. split; [exact E|]. rewrite O. change (Z.to_nat (2 ^ 64 - (2 ^ 64 - 1))) with 1%nat. cbn [concat app firstn sealed_stream c_writer ready_client ready_writer w_out]. rewrite app_nil_r. reflexivity.
Qed.
(** and received *)
Example ex_wrap_read : exists r', taking Release 2 (ready_reader Release (2 ^ 64 - 1) (cyclic (repeat x00 32) (repeat x00 12) (2 ^ 64 - 1) ApplicationDataTy [[x61]; [x62]])) = (Ok [[x61]; [x62]], r') /\ r_count r' = 1.
Proof.
  destruct (ready_keyed Release (2 ^ 64 - 1) (cyclic (repeat x00 32) (repeat x00 12) (2 ^ 64 - 1) ApplicationDataTy [[x61]; [x62]]) ltac:(discriminate)) as (K & NP & S).
  destruct (read_release _ _ [[x61]; [x62]] ltac:(repeat constructor; discriminate) _ _ [] K eq_refl NP ltac:(rewrite app_nil_r; exact S)) as (r' & E & (_ & _ & C & _) & _). exists r'. split; [exact E|exact C].
Qed.
Example ex_wrap_read_debug : exists r', taking Debug 1 (ready_reader Debug (2 ^ 64 - 1) (sealed_stream (repeat x00 32) (repeat x00 12) (2 ^ 64 - 1) ApplicationDataTy [[x61]])) = (Panic, r').
Proof.
  destruct (ready_keyed Debug (2 ^ 64 - 1) (sealed_stream (repeat x00 32) (repeat x00 12) (2 ^ 64 - 1) ApplicationDataTy [[x61]]) ltac:(discriminate)) as (K & NP & S).
  exact (read_debug _ _ [[x61]] ltac:(repeat constructor; discriminate) _ _ [] K eq_refl NP ltac:(rewrite app_nil_r; exact S) eq_refl).
Qed.
