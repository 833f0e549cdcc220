(** C104: any number of forged records in place of one. *)
From Verif Require Import Spec_Tries P_Tries.
Local Open Scope list_scope.
Local Open Scope Z_scope.

(** of the one-time keys that explain the genuine record, one of [n] forged records is accepted for at most [n] times [2^36] *)
Theorem C104_records : forall m k g attempts conns, 0 <= k -> k + 1 < 2 ^ 64 -> zlen (f_body g) <= 18432 ->
  Forall (fun a => a <> g /\ zlen (f_body a) <= 18432) attempts -> NoDup (map (one_time k) conns) ->
  Forall (fun c => (exists p, protects (fst c) (snd c) k (f_type g) (f_major g) (f_minor g) p (f_body g)) /\
     exists r rest, keyed m r (fst c) (snd c) k /\ stream (r_src r) = concat (map on_wire attempts) ++ rest /\ beaten m (length attempts) r) conns ->
  Z.of_nat (length conns) <= 2 ^ 36 * Z.of_nat (length attempts).
Proof. exact tries_bound. Qed.
Print Assumptions C104_records.
(** the same for the calls of [read] of the application: if one of them gives anything but zero bytes, the key is one of these *)
Theorem C104_client : forall m k g attempts conns, 0 <= k -> k + 1 < 2 ^ 64 -> zlen (f_body g) <= 18432 ->
  Forall (fun a => a <> g /\ zlen (f_body a) <= 18432) attempts -> NoDup (map (one_time k) conns) ->
  Forall (fun d => (exists p, protects (fst d) (snd d) k (f_type g) (f_major g) (f_minor g) p (f_body g)) /\
     exists c ns rest, keyed m (c_reader c) (fst d) (snd d) k /\ no_pending (c_reader c) /\ c_buf c = [] /\ length ns = length attempts /\
       stream (r_src (c_reader c)) = concat (map on_wire attempts) ++ rest /\ gains m ns c) conns ->
  Z.of_nat (length conns) <= 2 ^ 36 * Z.of_nat (length attempts).
Proof. exact gains_bound. Qed.
Print Assumptions C104_client.
(** that the first forged record ends the connection is false: there is no limit to their number, and the genuine record is still accepted behind them *)
Theorem C104_one_try_refuted : exists m c key iv f attempts ns c1 c2, keyed m (c_reader c) key iv 1 /\ c_buf c = [] /\ (1000 < length attempts)%nat /\
  stream (r_src (c_reader c)) = concat (map on_wire attempts) ++ sealed_record key iv 1 ApplicationDataTy f /\
  Forall (fun a => forall p, ~ protects key iv 1 (f_type a) (f_major a) (f_minor a) p (f_body a)) attempts /\ length ns = length attempts /\
  vain m ns c c1 /\ f <> [] /\ client_read m (length f) c1 = (Ok f, c2).
Proof. exact one_try_false. Qed.
Print Assumptions C104_one_try_refuted.
Theorem C104_patient : forall m key iv k f rest, k + 1 < 2 ^ 64 -> legal_fragment f -> forall attempts ns c, keyed m (c_reader c) key iv k -> no_pending (c_reader c) -> c_buf c = [] ->
  Forall (fun a => zlen (f_body a) <= 18432 /\ forall p, ~ protects key iv k (f_type a) (f_major a) (f_minor a) p (f_body a)) attempts -> length ns = length attempts ->
  stream (r_src (c_reader c)) = concat (map on_wire attempts) ++ sealed_record key iv k ApplicationDataTy f ++ rest ->
  exists c1 c2, vain m ns c c1 /\ client_read m (length f) c1 = (Ok f, c2).
Proof. exact patient. Qed.
Print Assumptions C104_patient.

(** the hypotheses of [C104_records] for one connection and one forged record, made by someone who has the key *)
Example ex_try : forall m key iv, length key = 32%nat -> length iv = 12%nat ->
  let g := sealed_as key iv 1 [x41] in let a := sealed_as key iv 1 [x42] in
  a <> g /\ zlen (f_body g) <= 18432 /\ zlen (f_body a) <= 18432 /\ protects key iv 1 (f_type g) (f_major g) (f_minor g) [x41] (f_body g) /\
  exists r, keyed m r key iv 1 /\ stream (r_src r) = concat (map on_wire [a]) ++ [] /\ beaten m 1 r.
Proof. exact try_case. Qed.
