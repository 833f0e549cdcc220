(** Properties of src/client.rs: C68-C72. *)
From Verif Require Import Spec_Client4 P_Aead P_Decode P_Client3 P_Client4 P_Alert P_Open P_Exact.
From Coq Require Import Lia.
Import String.StringSyntax.
Local Open Scope string_scope.
Local Open Scope list_scope.
Local Open Scope Z_scope.

(** ** C68: a warning alert does not end the handshake: false *)
(** unrecognized_name, level warning, in front of a flight that connects: the client answers with a close_notify of level fatal *)
Theorem C68_warning_refuted : exists m s g c ss c', client_new m s [] g = (Ok tt, c) /\ reached m s g (Complete ss) /\
  client_new m (RData (e_record AlertTy [x01; x70]) :: s) [] g = (Err AlertReceived, c') /\
  w_out (c_writer c') = flight_hello (firstn 32 g) ++ e_record AlertTy [x02; x00].
Proof. exact (ex_intro _ Release (warning_aborts Release)). Qed.
Print Assumptions C68_warning_refuted.
Theorem C68_warning_both_builds : forall m, exists s g c ss c', client_new m s [] g = (Ok tt, c) /\ reached m s g (Complete ss) /\
  client_new m (RData (e_record AlertTy [x01; x70]) :: s) [] g = (Err AlertReceived, c') /\
  w_out (c_writer c') = flight_hello (firstn 32 g) ++ e_record AlertTy [x02; x00].
Proof. exact warning_aborts. Qed.
Print Assumptions C68_warning_both_builds.
(** wherever a handshake message is due *)
Theorem C68_any_alert : forall m s p g st r a r', healthy (writer_new p) -> (32 <= length g)%nat -> awaits m s g st r -> read_message m r = (Ok (AlertMessage a), r') ->
  exists c, client_new m s p g = (Err AlertReceived, c) /\ w_out (c_writer c) = stage_out st ++ alert_out st AlertReceived.
Proof. exact any_alert. Qed.
Print Assumptions C68_any_alert.
(** where the ChangeCipherSpec is due, an alert is reported as an unexpected message *)
Theorem C68_alert_for_ccs : forall m s p g ss r a r', healthy (writer_new p) -> (32 <= length g)%nat -> awaits_ccs m s g ss r -> read_message m r = (Ok (AlertMessage a), r') ->
  exists c, client_new m s p g = (Err UnexpectedMessage, c) /\ w_out (c_writer c) = stage_out (Complete ss) ++ alert_out (Complete ss) UnexpectedMessage.
Proof. exact ccs_alert. Qed.
Print Assumptions C68_alert_for_ccs.
(** on the wire: the server refuses the ClientHello; any level, any known description, any version bytes *)
Theorem C68_first_answer : forall m s p g maj min f a rest, healthy (writer_new p) -> (32 <= length g)%nat ->
  stream s = wire AlertTy maj min f ++ rest -> zlen f <= 16384 -> known_alert f a ->
  exists c, client_new m s p g = (Err AlertReceived, c) /\ w_out (c_writer c) = flight_hello (firstn 32 g) ++ e_record AlertTy [x02; x00].
Proof. exact alert_first. Qed.
Print Assumptions C68_first_answer.
(** on the wire: the server refuses the client's Finished, under protection *)
Theorem C68_instead_of_finished : forall m s p g ss r r1 f a rest, healthy (writer_new p) -> reached m s g (Complete ss) -> server_flight m (reader_new s) (s_sh ss) (s_certs ss) (s_ske ss) r ->
  read_change_cipher_spec m (ived_reader r (s_keys ss)) = (Ok tt, r1) -> zlen f <= 16384 -> known_alert f a ->
  stream (r_src r1) = sealed_record (k_server (s_keys ss)) (iv_server (s_keys ss)) 0 AlertTy f ++ rest ->
  exists c, client_new m s p g = (Err AlertReceived, c) /\
    w_out (c_writer c) = stage_out (Complete ss) ++ sealed_record (k_client (s_keys ss)) (iv_client (s_keys ss)) 1 AlertTy [x02; x00].
Proof. exact alert_last. Qed.
Print Assumptions C68_instead_of_finished.
Example ex_warning : known_alert [x01; x70] (Alert AL_warning AD_unrecognized_name).
Proof. exists x01, x70, []. split; [reflexivity|]. split; [left; reflexivity|]. cbn. tauto. Qed.
Example ex_refusal : forall m, exists c, client_new m [RData [x15; x03; x01; x00; x02; x02; x28]] [] (repeat x00 32) = (Err AlertReceived, c) /\
  w_out (c_writer c) = flight_hello (repeat x00 32) ++ [x15; x03; x03; x00; x02; x02; x00].
Proof.
  intros m. apply (alert_first m [RData [x15; x03; x01; x00; x02; x02; x28]] [] (repeat x00 32) x03 x01 [x02; x28] (Alert AL_fatal AD_handshake_failure) []); try (constructor || reflexivity || discriminate).
  exists x02, x28, []. split; [reflexivity|]. split; [right; left; reflexivity|]. cbn. tauto.
Qed.

(** ** C69: a handshake message whose length does not fit its fields is answered by decode_error: false *)
(** a proper prefix of any well-formed body, correctly framed: an i/o error, or, cut in front of the extensions of a hello, the message without them *)
Theorem C69_cut_message : forall h p q rest, wf_handshake h -> e_hs_body h = p ++ q -> q <> [] -> ~ opaque_body h ->
  get_message (frame (z2b (hs_type h)) p ++ rest) = (Err IoFailure, rest) \/
  get_message (frame (z2b (hs_type h)) p ++ rest) = (Ok (Some (without_extensions h)), rest) /\ without_extensions h <> h.
Proof. exact cut_message. Qed.
Print Assumptions C69_cut_message.
(** bytes after the last field: an internal error *)
Theorem C69_long_message : forall h b extra rest, wf_handshake h -> ~ opaque_body h -> (forall x, h <> client_hello_msg x) -> (forall x, h <> server_hello_msg x) ->
  zlen (e_hs_body h ++ b :: extra) < 2 ^ 24 ->
  get_message (frame (z2b (hs_type h)) (e_hs_body h ++ b :: extra) ++ rest) = (Err InternalError, rest).
Proof. exact long_message. Qed.
Print Assumptions C69_long_message.
(** all the ways a complete message is refused *)
Theorem C69_kinds : forall ty body rest k, zlen body < 2 ^ 24 -> fst (get_message (frame ty body ++ rest)) = Err k ->
  k = IoFailure \/ k = DecodeError \/ k = UnexpectedMessage /\ ~ In (b2z ty) known_hs_types \/
  k = InternalError /\ exists h b r, hs_read_ty (b2z ty) body = Ok (h, b :: r).
Proof. exact message_kinds. Qed.
Print Assumptions C69_kinds.
Theorem C69_first_message : forall m s p g ty body rest k, healthy (writer_new p) -> (32 <= length g)%nat ->
  stream s = e_record HandshakeTy (frame ty body) ++ rest -> zlen (frame ty body) <= 16384 -> fst (get_message (frame ty body)) = Err k ->
  exists c, client_new m s p g = (Err k, c) /\ w_out (c_writer c) = flight_hello (firstn 32 g) ++ signal (Hello (firstn 32 g)) k.
Proof. exact undecodable_first. Qed.
Print Assumptions C69_first_message.
(** a ServerHello that is too short, however short: the caller sees an i/o error and no alert is sent *)
Theorem C69_cut_hello : forall m s p g sh b1 b2 rest, healthy (writer_new p) -> (32 <= length g)%nat ->
  wf_handshake (server_hello_msg sh) -> sh_exts sh = None -> e_server_hello sh = b1 ++ b2 -> b2 <> [] ->
  stream s = e_record HandshakeTy (frame x02 b1) ++ rest ->
  exists c, client_new m s p g = (Err IoFailure, c) /\ w_out (c_writer c) = flight_hello (firstn 32 g).
Proof. exact cut_first. Qed.
Print Assumptions C69_cut_hello.
Theorem C69_decode_error_refuted : exists m s g c, stream s = e_record HandshakeTy (frame x02 [x03]) /\
  client_new m s [] g = (Err IoFailure, c) /\ w_out (c_writer c) = flight_hello (firstn 32 g).
Proof. exact (ex_intro _ Release (cut_witness Release)). Qed.
Print Assumptions C69_decode_error_refuted.
Theorem C69_decode_error_both_builds : forall m, exists s g c, stream s = e_record HandshakeTy (frame x02 [x03]) /\
  client_new m s [] g = (Err IoFailure, c) /\ w_out (c_writer c) = flight_hello (firstn 32 g).
Proof. exact cut_witness. Qed.
Print Assumptions C69_decode_error_both_builds.
Example ex_cut : fst (get_message (frame x14 [x00; x01; x02])) = Err IoFailure. Proof. reflexivity. Qed.
Example ex_long : fst (get_message (frame x0e [x00])) = Err InternalError. Proof. reflexivity. Qed.
Example ex_frame : frame x0e [x00] = [x0e; x00; x00; x01; x00]. Proof. reflexivity. Qed.

(** ** C70: every error of the handshake names its cause *)
Theorem C70_meaning : forall m s p g k c, healthy (writer_new p) -> client_new m s p g = (Err k, c) -> meaning m s g k.
Proof. exact meanings. Qed.
Print Assumptions C70_meaning.
(** the causes are about the input: an empty stream has none of the others *)
Example ex_meaning : forall m g, ~ meaning m [] g AlertReceived.
Proof. exact no_alert_in_silence. Qed.
Example ex_meaning_io : forall m g, meaning m [] g IoFailure.
Proof. intros m g. left. exists (reader_new []), (reader_new []). split; [left; exists (Hello (firstn 32 g)); apply AW_hello|]. destruct m; reflexivity. Qed.

(** ** C71: with the keys installed a record is accepted exactly if it was sealed under the expected number *)
(** every complete record; longer ones are C19. Only the holder of the key can reach the panic *)
Theorem C71_record : forall m r key iv k t maj min f rest, keyed m r key iv k -> k + 1 < 2 ^ 64 -> zlen f <= 18432 -> stream (r_src r) = wire t maj min f ++ rest ->
  exists r', stream (r_src r') = rest /\ r_buf r' = r_buf r /\
  ((exists p, protects key iv k t maj min p f /\ zlen p <= 16384 /\ read_record m r = (Ok (Rec t maj min p), r') /\ keyed m r' key iv (k + 1)) \/
   (exists p, protects key iv k t maj min p f /\ 16384 < zlen p /\ read_record m r = (Panic, r')) \/
   ((forall p, ~ protects key iv k t maj min p f) /\ read_record m r = (Err BadRecordMac, r') /\ keyed m r' key iv k)).
Proof. exact record_opens. Qed.
Print Assumptions C71_record.
(** a refused record takes no number: the next genuine one is still accepted *)
Theorem C71_skipped : forall m r key iv k t maj min f t' d rest, keyed m r key iv k -> k + 1 < 2 ^ 64 -> zlen f <= 18432 -> (forall p, ~ protects key iv k t maj min p f) ->
  zlen d <= 16384 -> stream (r_src r) = wire t maj min f ++ sealed_record key iv k t' d ++ rest ->
  exists r1 r2, read_record m r = (Err BadRecordMac, r1) /\ read_record m r1 = (Ok (Rec t' x03 x03 d), r2) /\ keyed m r2 key iv (k + 1) /\ stream (r_src r2) = rest.
Proof. exact bad_record_skipped. Qed.
Print Assumptions C71_skipped.
Theorem C71_in_place_of_finished : forall m s p g ss r r1 t maj min f rest, healthy (writer_new p) -> reached m s g (Complete ss) -> server_flight m (reader_new s) (s_sh ss) (s_certs ss) (s_ske ss) r ->
  read_change_cipher_spec m (ived_reader r (s_keys ss)) = (Ok tt, r1) -> zlen f <= 18432 ->
  (forall d, ~ protects (k_server (s_keys ss)) (iv_server (s_keys ss)) 0 t maj min d f) ->
  stream (r_src r1) = wire t maj min f ++ rest ->
  exists c, client_new m s p g = (Err BadRecordMac, c) /\
    w_out (c_writer c) = stage_out (Complete ss) ++ sealed_record (k_client (s_keys ss)) (iv_client (s_keys ss)) 1 AlertTy [x02; x14].
Proof. exact bad_finished. Qed.
Print Assumptions C71_in_place_of_finished.
Example ex_not_sealed : forall key iv k t maj min p, ~ protects key iv k t maj min p [x00; x01; x02].
Proof. intros key iv k t maj min p Q. apply (f_equal (@length _)) in Q. rewrite aead_seal_length in Q. cbn [length] in Q. lia. Qed.
Example ex_keyed : forall m, keyed m (Reader [] (Some (new_decryptor m (repeat x00 32))) 5 [] (Some (repeat x00 12))) (repeat x00 32) (repeat x00 12) 5.
Proof. intros m. repeat (split; [reflexivity|]). discriminate. Qed.

(** ** C72: the key exchange has exactly 2^56 outcomes *)
(** with one honest server: two private values give the same public value, and the same pre-master secret, exactly if they agree in the 56 bits used *)
Theorem C72_distinct : forall m sv g1 g2 j1 j2 ss1 ss2 cr1 cr2, wf_server sv -> first_accepted g1 j1 -> first_accepted g2 j2 ->
  let u1 := used_scalar (draw g1 j1) in let u2 := used_scalar (draw g2 j2) in u1 <> 0 -> u2 <> 0 ->
  agreed sv cr1 (nmul (Z.to_nat u1) Gpt) ss1 -> agreed sv cr2 (nmul (Z.to_nat u2) Gpt) ss2 ->
  compute_keys m (s_ske ss1) g1 = (Ok (s_cke ss1, s_pms ss1), skipn (32 * S j1) g1) /\
  compute_keys m (s_ske ss2) g2 = (Ok (s_cke ss2, s_pms ss2), skipn (32 * S j2) g2) /\
  s_ske ss1 = s_ske ss2 /\ (s_cke ss1 = s_cke ss2 <-> u1 = u2) /\ (s_pms ss1 = s_pms ss2 <-> u1 = u2).
Proof. exact keys_exact. Qed.
Print Assumptions C72_distinct.
(** none of the 2^56 is missing *)
Theorem C72_every_value : forall u, 0 <= u < 2 ^ 56 -> exists g, first_accepted g 0 /\ used_scalar (draw g 0) = u.
Proof. exact every_scalar. Qed.
Print Assumptions C72_every_value.
Example ex_exact : exists ss, agreed plain_server (repeat x00 32) (nmul (Z.to_nat 5) Gpt) ss.
Proof. apply server_agrees; [exact plain_wf|split; reflexivity]. Qed.
Example ex_spread : first_accepted (le 32 (2 ^ 32 + 2)) 0 /\ used_scalar (draw (le 32 (2 ^ 32 + 2)) 0) = 258.
Proof. split; [split; [vm_compute; lia|split; [reflexivity|intros j J; lia]]|reflexivity]. Qed.
