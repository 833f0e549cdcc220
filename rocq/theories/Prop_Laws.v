(** C105: laws of the calls of the client, and of the methods [std] derives from them. *)
From Verif Require Import Spec_Client3 Spec_Laws P_Laws P_Laws2.
Local Open Scope list_scope.
Local Open Scope Z_scope.

(** how the application cuts its reads makes no difference: to the bytes, to the error, to the state of the client *)
Theorem C105_read : forall m ns c, reading m ns c = client_read m (fold_right Nat.add 0%nat ns) c.
Proof. exact read_parts. Qed.
Print Assumptions C105_read.
Theorem C105_partition : forall m ns ns' c, fold_right Nat.add 0%nat ns = fold_right Nat.add 0%nat ns' -> reading m ns c = reading m ns' c.
Proof. exact read_partition. Qed.
Print Assumptions C105_partition.
(** [Read::bytes] gives what one read gives *)
Theorem C105_bytes : forall m k c, client_bytes m k c = client_read m k c.
Proof. exact bytes_read. Qed.
Print Assumptions C105_bytes.
(** writes of whole records and a last one of any length are one write *)
Theorem C105_write : forall m ps c b, Forall (fun p => zlen p mod 16384 = 0) ps -> handing m (ps ++ [b]) c = client_write_all m (concat ps ++ b) c.
Proof. exact write_parts. Qed.
Print Assumptions C105_write.
(** that it makes no difference anywhere else is false: the bytes on the wire are others *)
Theorem C105_write_anywhere_refuted : exists m s g c a b c1 c2, client_new m s [] g = (Ok tt, c) /\
  client_write_all m (a ++ b) c = (Ok tt, c1) /\ (do* _ := client_write_all m a in client_write_all m b) c = (Ok tt, c2) /\
  w_out (c_writer c1) <> w_out (c_writer c2).
Proof. exact write_anywhere_false. Qed.
Print Assumptions C105_write_anywhere_refuted.
(** [write!]: the peer reads the text, however it comes in pieces *)
Theorem C105_format : forall m s p g c ps, client_new m s p g = (Ok tt, c) -> healthy (writer_new p) -> 2 + zlen (concat ps) < 2 ^ 64 ->
  exists c', client_write_fmt m ps c = (Ok tt, c') /\ c_buf c' = c_buf c /\ c_reader c' = c_reader c /\
    forall t, stream t = w_out (c_writer c') -> exists ss it, reached m s g (Complete ss) /\ hears m t ss it /\ app_data (map heard it) = concat ps.
Proof. exact fmt_heard. Qed.
Print Assumptions C105_format.
(** it succeeds exactly if the writes of its pieces do, and otherwise ends with the first piece that fails, as that piece does *)
Theorem C105_format_pieces : forall m ps c c', client_write_fmt m ps c = (Ok tt, c') <-> calls m (map Write ps) c = (map (fun p => Wrote (Ok (zlen p))) ps, c').
Proof. exact fmt_goes. Qed.
Print Assumptions C105_format_pieces.
Theorem C105_format_stops : forall m ps c x c', client_write_fmt m ps c = (x, c') -> x <> Ok tt ->
  exists pre p post c1, ps = pre ++ p :: post /\ client_write_fmt m pre c = (Ok tt, c1) /\ client_write_all m p c1 = (x, c').
Proof. exact fmt_stops. Qed.
Print Assumptions C105_format_stops.
(** the vectored methods serve the first buffer that is not empty *)
Theorem C105_vectored : forall m pre b post c, Forall (fun x => x = []) pre -> b <> [] ->
  client_write_vectored m (pre ++ b :: post) c = client_write m b c /\
  client_read_vectored m (map (@length byte) (pre ++ b :: post)) c = client_read m (length b) c.
Proof. exact vectored_first. Qed.
Print Assumptions C105_vectored.
Theorem C105_vectored_none : forall m pre c, Forall (fun x : bytes => x = []) pre -> client_write_vectored m pre c = client_write m [] c /\
  client_read_vectored m (map (@length byte) pre) c = (Ok [], c).
Proof. exact vectored_none. Qed.
Print Assumptions C105_vectored_none.
(** that a vectored write sends all its buffers is false *)
Theorem C105_vectored_all_refuted : exists m s g c c' a b, client_new m s [] g = (Ok tt, c) /\ b <> [] /\ client_write_vectored m [a; b] c = (Ok (zlen a), c').
Proof. exact vectored_partial. Qed.
Print Assumptions C105_vectored_all_refuted.

Example ex_held : forall m r w g, let c := Client r w g [x61; x62; x63] in
  client_read m 3 c = (Ok [x61; x62; x63], Client r w g []) /\ reading m [1%nat; 2%nat] c = (Ok [x61; x62; x63], Client r w g []).
Proof. exact held. Qed.
Example ex_block : forall m c, exists a, length a = Z.to_nat 16384 /\ handing m [a; [x61]] c = client_write_all m (a ++ [x61]) c.
Proof. exact block_parts. Qed.
Example ex_first : first_nonempty [[]; [x61]; [x62]] = [x61] /\ first_nonempty [[]; []] = []. Proof. split; reflexivity. Qed.
