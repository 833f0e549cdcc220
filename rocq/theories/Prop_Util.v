(** Properties C08 (primitive reads), C09, C10, C11: src/util.rs. *)
From Verif Require Import Spec_Util P_Util P_Extra.

(** ** C08, at the level of [fill_exact]/[read_exact] (records, messages and client reads: [Prop_Record.v]) *)
Theorem C08_fill_exact_splitting : forall s1 s2 n, same_stream s1 s2 ->
  fst (fill_exact s1 n) = fst (fill_exact s2 n) /\
  same_stream (snd (fill_exact s1 n)) (snd (fill_exact s2 n)).
Proof. exact fill_split. Qed.
Print Assumptions C08_fill_exact_splitting.

Theorem C08_fill_exact_next_bytes : forall s n, (n <= length (stream s))%nat ->
  exists s', fill_exact s n = (Ok (firstn n (stream s)), s') /\ stream s' = skipn n (stream s).
Proof. exact fill_ok. Qed.
Print Assumptions C08_fill_exact_next_bytes.

Example ex_split : same_stream [RData [x01]; RData [x02; x03]] [RData [x01; x02]; RData [x03]] /\
  fst (fill_exact [RData [x01]; RData [x02; x03]] 2) = Ok [x01; x02].
Proof. repeat split; try (repeat constructor; eauto). Qed.

(** ** C09 *)
Theorem C09_short_stream_is_error : forall s n, (length (stream s) < n)%nat ->
  fst (fill_exact s n) = Err IoFailure.
Proof. exact fill_err. Qed.
Print Assumptions C09_short_stream_is_error.

Theorem C09_never_short : forall s n got s', fill_exact s n = (Ok got, s') -> length got = n.
Proof. exact fill_never_short. Qed.
Print Assumptions C09_never_short.

Example ex_short : stream [RData [x01]; RErr; RData [x02]] = [x01] /\
  fill_exact [RData [x01]; RErr; RData [x02]] 2 = (Err IoFailure, [RData [x02]]).
Proof. split; reflexivity. Qed.

(** ** C10 *)
Theorem C10_writers_network_order : forall h w x,
  write_be h w x = be w x /\ write_le h w x = le w x /\
  u64_be_array h x = be 8 x /\ u64_le_array h x = le 8 x /\ u32_be_array h x = be 4 x /\ u32_le_array h x = le 4 x.
Proof. exact endian_write. Qed.
Print Assumptions C10_writers_network_order.

Theorem C10_readers_network_order : forall h w bs, length bs = w ->
  read_be h w bs = be_val bs /\ read_le h w bs = le_val bs.
Proof. exact endian_read. Qed.
Print Assumptions C10_readers_network_order.

Theorem C10_roundtrip : forall h h' w x, 0 <= x < 256 ^ Z.of_nat w ->
  read_be h w (write_be h' w x) = x /\ read_le h w (write_le h' w x) = x.
Proof. exact endian_roundtrip. Qed.
Print Assumptions C10_roundtrip.

Example ex_endian : write_be LittleHost 4 16909060 = [x01; x02; x03; x04] /\
  write_le BigHost 4 16909060 = [x04; x03; x02; x01] /\ to_mem BigHost 4 16909060 <> to_mem LittleHost 4 16909060.
Proof. split; [reflexivity|]. split; [reflexivity|]. discriminate. Qed.

(** ** C11 *)
Theorem C11_compare_decides : forall m a b, length a = length b ->
  exists r, crypto_compare m a b = Ok r /\ (r = true <-> a = b).
Proof. exact compare_decides. Qed.
Print Assumptions C11_compare_decides.

Theorem C11_length_mismatch_debug : forall a b, length a <> length b -> crypto_compare Debug a b = Panic.
Proof. exact compare_lengths_debug. Qed.
Print Assumptions C11_length_mismatch_debug.

Theorem C11_length_mismatch_release : forall a b,
  ((length b < length a)%nat -> crypto_compare Release a b = Panic) /\
  ((length a <= length b)%nat -> exists r, crypto_compare Release a b = Ok r /\ (r = true <-> a = firstn (length a) b)).
Proof. exact compare_release. Qed.
Print Assumptions C11_length_mismatch_release.

Example ex_compare : crypto_compare Release [x01; x80] [x01; x00] = Ok false /\
  crypto_compare Debug [x01; x80] [x01; x80] = Ok true.
Proof. split; reflexivity. Qed.
