(** C81 and C82: histories of calls through the whole public interface of a connected client. *)
From Verif Require Import Spec_Api P_Util P_Codec P_Client4 P_Api.
From Coq Require Import ZifyBool ZifyNat ZifyN.
Local Open Scope list_scope.
Local Open Scope Z_scope.

(** a history that reaches every part of the interface *)
Definition tour : list api :=
  [A_write [x61; x62]; A_read 0; A_writer (OpData HandshakeTy [x00]); A_raw_write [x0a]; A_reader R_message; A_rng 0; A_flush;
   A_record (Rec AlertTy x03 x03 [x01; x5a]); A_alert BadRecordMac; A_raw_read 1; A_close].

(** ** C81 *)
(** no history replaces a key or an IV of either direction *)
Theorem C81_keys_fixed : forall m s p g c l, client_new m s p g = (Ok tt, c) ->
  exists ss, reached m s g (Complete ss) /\ let c' := snd (api_run m l c) in
    w_enc (c_writer c') = Some (new_encryptor m (k_client (s_keys ss))) /\ w_iv (c_writer c') = Some (iv_client (s_keys ss)) /\
    r_dec (c_reader c') = Some (new_decryptor m (k_server (s_keys ss))) /\ r_iv (c_reader c') = Some (iv_server (s_keys ss)).
Proof. exact keys_fixed. Qed.
Print Assumptions C81_keys_fixed.
(** trying to is a panic *)
Theorem C81_rekeying_panics : forall m s p g c l o, client_new m s p g = (Ok tt, c) -> rekeys o = true ->
  fst (do_api m o (snd (api_run m l c))) = Panic.
Proof. exact rekey_panics. Qed.
Print Assumptions C81_rekeying_panics.
Example ex_rekeys : rekeys (A_writer (OpSetIv (repeat x00 12))) = true /\ rekeys (A_reader (R_set_decryptor (new_decryptor Debug []))) = true /\
  existsb rekeys tour = false.
Proof. repeat split. Qed.

(** the k-th sealed record of the connection has sequence number k, nonce and additional data accordingly, and no nonce occurs twice *)
Theorem C81_nonces : forall m s p g c l, client_new m s p g = (Ok tt, c) -> healthy (writer_new p) ->
  let log := w_log (c_writer (snd (api_run m l c))) in zlen log <= 2 ^ 64 ->
  exists ss, reached m s g (Complete ss) /\
    (forall k e, nth_error log k = Some e -> log_nonce e = rfc_nonce (iv_client (s_keys ss)) (Z.of_nat k) /\
       exists t maj min, log_ad e = rfc_ad (Z.of_nat k) t maj min (zlen (log_plain e))) /\
    NoDup (map log_nonce log).
Proof. exact api_nonces. Qed.
Print Assumptions C81_nonces.
(** the output is made of sealed records, and of bytes pushed past the TLS layer *)
Theorem C81_sealed : forall m s p g c l, client_new m s p g = (Ok tt, c) -> let c' := snd (api_run m l c) in
  exists ss log pieces, reached m s g (Complete ss) /\
    w_log (c_writer c') = w_log (c_writer c) ++ log /\ Forall (logged_by (new_encryptor m (k_client (s_keys ss)))) log /\
    w_out (c_writer c') = w_out (c_writer c) ++ concat pieces /\ Forall (piece_of l log) pieces.
Proof. exact api_sealed. Qed.
Print Assumptions C81_sealed.
(** reading, writing and drawing randomness do not disturb each other *)
Theorem C81_separate : forall m d l c xs c' c2, api_run m l c = (xs, c') -> Forall fine xs -> part_of d c2 = part_of d c ->
  exists c2', api_run m (filter (on_side d) l) c2 = (answers_of d l xs, c2') /\ part_of d c2' = part_of d c' /\
    forall d', d' <> d -> part_of d' c2' = part_of d' c2.
Proof. exact api_separate. Qed.
Print Assumptions C81_separate.
Example ex_sides : filter (on_side Reading) tour = [A_read 0; A_reader R_message; A_raw_read 1] /\ filter (on_side Drawing) tour = [A_rng 0] /\
  length (filter (on_side Writing) tour) = 7%nat.
Proof. repeat split. Qed.
Example ex_separate : let l := [A_writer OpCcs; A_reader R_message; A_raw_write [x0a]; A_rng 1; A_read 0] in
  fst (api_run Debug l (client_init [] [] [x07])) = [Ok V_done; Err IoFailure; Ok V_done; Ok (V_bytes [x07]); Ok (V_bytes [])] /\
  answers_of Reading l (fst (api_run Debug l (client_init [] [] [x07]))) = [Err IoFailure; Ok (V_bytes [])].
Proof. split; vm_compute; reflexivity. Qed.
(** every call returns *)
Theorem C81_returns : forall m s p g c l, client_new m s p g = (Ok tt, c) -> Forall halts (fst (api_run m l c)).
Proof. exact api_halts. Qed.
Print Assumptions C81_returns.
(** within the limits of the writer, no writing call panics, whatever the transport does *)
Theorem C81_writing_never_panics : forall m s p g c l, client_new m s p g = (Ok tt, c) -> Forall legal_call l -> 1 + total_cost l < 2 ^ 64 ->
  forall i o, nth_error l i = Some o -> nth_error (fst (api_run m l c)) i = Some Panic -> side_of o <> Writing.
Proof. exact api_writes_total. Qed.
Print Assumptions C81_writing_never_panics.
Example ex_legal : Forall legal_call tour /\ total_cost tour = 10.
Proof. split; [|reflexivity]. repeat constructor; cbn; try exact I; lia. Qed.
(** there are connected clients *)
Example ex_connected m : exists s g c, client_new m s [] g = (Ok tt, c) /\ healthy (writer_new []).
Proof. destruct (plain_run m (fun _ => [])) as (s & g & ss & c & E & _). exists s, g, c. split; [exact E|constructor]. Qed.

(** ** C82 *)
(** a record built by hand goes out with more than 2^14 bytes of plaintext *)
Theorem C82_refuted : forall m, exists s g c r c', client_new m s [] g = (Ok tt, c) /\ do_api m (A_record r) c = (Ok V_done, c') /\
  exists e, In e (w_log (c_writer c')) /\ 16384 < zlen (log_plain e).
Proof. exact overlong. Qed.
Print Assumptions C82_refuted.
(** without such records no history does it *)
Theorem C82_otherwise : forall m s p g c l, client_new m s p g = (Ok tt, c) -> healthy (writer_new p) ->
  (forall r, In (A_record r) l -> zlen (rc_fragment r) <= 16384) ->
  Forall (fun e => zlen (log_plain e) <= 16384) (w_log (c_writer (snd (api_run m l c)))).
Proof. exact api_short. Qed.
Print Assumptions C82_otherwise.
Example ex_short : forall r, In (A_record r) tour -> zlen (rc_fragment r) <= 16384.
Proof. intros r H. cbn in H. repeat (destruct H as [H|H]; [try discriminate H; injection H as <-; cbn; lia|]). destruct H. Qed.
(** every record built by hand that fits after sealing is sent as it is *)
Theorem C82_sent : forall m s p g c r, client_new m s p g = (Ok tt, c) -> healthy (writer_new p) -> zlen (rc_fragment r) <= 16384 + 2048 - 16 ->
  exists ss c' log, reached m s g (Complete ss) /\ do_api m (A_record r) c = (Ok V_done, c') /\ w_log (c_writer c') = log ++ [
    (rfc_nonce (iv_client (s_keys ss)) 1, rc_fragment r, rfc_ad 1 (rc_type r) (rc_major r) (rc_minor r) (zlen (rc_fragment r)),
     aead_seal (k_client (s_keys ss)) (rfc_nonce (iv_client (s_keys ss)) 1) (rfc_ad 1 (rc_type r) (rc_major r) (rc_minor r) (zlen (rc_fragment r))) (rc_fragment r))] /\
    w_out (c_writer c') = w_out (c_writer c) ++ wire (rc_type r) (rc_major r) (rc_minor r)
      (aead_seal (k_client (s_keys ss)) (rfc_nonce (iv_client (s_keys ss)) 1) (rfc_ad 1 (rc_type r) (rc_major r) (rc_minor r) (zlen (rc_fragment r))) (rc_fragment r)).
Proof. exact long_record. Qed.
Print Assumptions C82_sent.
(** a longer one panics and sends nothing *)
Theorem C82_longer_panics : forall m r w key iv k, keyed_w m w key iv k -> 18416 < zlen (rc_fragment r) <= 2 ^ 24 ->
  fst (write_record m r w) = Panic /\ w_out (snd (write_record m r w)) = w_out w.
Proof. exact record_panics. Qed.
Print Assumptions C82_longer_panics.
