(** Properties of src/client.rs: C08, C25-C35, C50-C58. *)
From Verif Require Import Spec_Client Spec_Client2 P_Client P_Client2 P_App P_App2 P_App3 P_Client3 P_Client4 P_Panic P_Ops P_Client5 P_Fault P_Pending.
Local Open Scope list_scope.
Local Open Scope Z_scope.

(** ** C08: nothing depends on how the transport splits the stream *)
Theorem C08_client_new : forall m s1 s2 p g, same_stream s1 s2 ->
  fst (client_new m s1 p g) = fst (client_new m s2 p g) /\ same_client (snd (client_new m s1 p g)) (snd (client_new m s2 p g)).
Proof. exact new_splitting. Qed.
Print Assumptions C08_client_new.
Theorem C08_client_reads : forall m sizes c1 c2, same_client c1 c2 ->
  fst (client_reads m sizes c1) = fst (client_reads m sizes c2) /\ same_client (snd (client_reads m sizes c1)) (snd (client_reads m sizes c2)).
Proof. exact reads_splitting. Qed.
Print Assumptions C08_client_reads.
Example ex_splits : same_stream [RData [x16; x03]; RData [x03; x00; x01; x00]] [RData [x16; x03; x03; x00]; RData [x01]; RData [x00]].
Proof. split; [|split; [|reflexivity]]; repeat constructor; eauto. Qed.

(** ** C24: where the bytes of the server's Finished come from *)
(** for every stream: at most fifteen bytes from the clear, which agree with the expected message, then sealed records only *)
Theorem C24_ledger : forall m s p g c, zlen (all_bytes s) + 1 < 2 ^ 64 -> client_new m s p g = (Ok tt, c) ->
  exists ss before clear fs bs, reached m s g (Complete ss) /\ sealed_run (k_server (s_keys ss)) (iv_server (s_keys ss)) 0 fs bs /\
    all_bytes s = before ++ bs ++ all_bytes (r_src (c_reader c)) /\
    finished_from ss clear fs (r_buf (c_reader c)) /\
    keyed m (c_reader c) (k_server (s_keys ss)) (iv_server (s_keys ss)) (zlen fs).
Proof. exact finished_ledger. Qed.
Print Assumptions C24_ledger.
(** any proper part of the Finished may come in the clear, whoever the server is *)
Theorem C24_split_accepted : forall m sv g j ss s p fs1 P fs2 rest, wf_server sv -> (32 <= length g)%nat -> first_accepted (skipn 32 g) j ->
  used_scalar (draw (skipn 32 g) j) <> 0 ->
  agreed sv (firstn 32 g) (nmul (Z.to_nat (used_scalar (draw (skipn 32 g) j))) Gpt) ss ->
  first_flight ss fs1 -> Forall legal_fragment (P :: fs2) -> fs2 <> [] -> P ++ concat fs2 = e_handshake (s_server_fin ss) ->
  stream s = concat (map (e_record HandshakeTy) fs1) ++ e_record HandshakeTy P ++ e_record ChangeCipherSpecTy [x01] ++
    sealed_stream (k_server (s_keys ss)) (iv_server (s_keys ss)) 0 HandshakeTy fs2 ++ rest ->
  healthy (writer_new p) ->
  exists c, client_new m s p g = (Ok tt, c) /\ reached m s g (Complete ss) /\ stream (r_src (c_reader c)) = rest.
Proof. exact split_connects. Qed.
Print Assumptions C24_split_accepted.
(** the first half of the Finished in the clear, the other half sealed: connected *)
Theorem C24_client_refuted : exists m s g c ss before P Q, clean s /\ client_new m s [] g = (Ok tt, c) /\ reached m s g (Complete ss) /\
  length P = 8%nat /\ P ++ Q = e_handshake (s_server_fin ss) /\
  stream s = before ++ e_record HandshakeTy P ++ e_record ChangeCipherSpecTy [x01] ++
    sealed_stream (k_server (s_keys ss)) (iv_server (s_keys ss)) 0 HandshakeTy [Q].
Proof. exact (ex_intro _ Release (split_run Release)). Qed.
Print Assumptions C24_client_refuted.
Theorem C24_client_both_builds : forall m, exists s g c ss before P Q, clean s /\ client_new m s [] g = (Ok tt, c) /\ reached m s g (Complete ss) /\
  length P = 8%nat /\ P ++ Q = e_handshake (s_server_fin ss) /\
  stream s = before ++ e_record HandshakeTy P ++ e_record ChangeCipherSpecTy [x01] ++
    sealed_stream (k_server (s_keys ss)) (iv_server (s_keys ss)) 0 HandshakeTy [Q].
Proof. exact split_run. Qed.
Print Assumptions C24_client_both_builds.

(** ** C25: the bytes returned by [read] *)
(** every byte of every application-data record read so far was returned, in order, or is still in the buffer *)
Theorem C25_bytes_conserved : forall m sizes c, Forall fine (fst (client_reads m sizes c)) -> exists n,
  let ins := fst (reads (read_application_data m) n (c_reader c)) in
  Forall fine ins /\ c_reader (snd (client_reads m sizes c)) = snd (reads (read_application_data m) n (c_reader c)) /\
  c_buf c ++ concat (oks ins) = concat (oks (fst (client_reads m sizes c))) ++ c_buf (snd (client_reads m sizes c)).
Proof. exact conserved. Qed.
Print Assumptions C25_bytes_conserved.
Theorem C25_sizes_irrelevant : forall m sizes1 sizes2 c,
  comparable (concat (oks (fst (client_reads m sizes1 c)))) (concat (oks (fst (client_reads m sizes2 c)))).
Proof. exact sizes_irrelevant. Qed.
Print Assumptions C25_sizes_irrelevant.
(** as long as there is data, every read fills its buffer *)
Theorem C25_exact : forall m key iv rest sizes c k fs, serving m c key iv k fs rest -> (list_sum sizes <= length (c_buf c ++ concat fs))%nat ->
  exists outs c' k' fs', client_reads m sizes c = (map Ok outs, c') /\ map (@length byte) outs = sizes /\
    concat outs ++ c_buf c' ++ concat fs' = c_buf c ++ concat fs /\ serving m c' key iv k' fs' rest.
Proof. exact serves. Qed.
Print Assumptions C25_exact.
Theorem C25_last_read : forall m c key iv k fs n, serving m c key iv k fs [] -> (length (c_buf c ++ concat fs) < n)%nat ->
  exists c', client_read m n c = (Ok (c_buf c ++ concat fs), c') /\ c_buf c' = [].
Proof. exact last_read. Qed.
Print Assumptions C25_last_read.
(** the whole connection: a server that follows the RFC, then its application data in records of any size *)
Theorem C25_end_to_end : forall m sv g j ss s p fs1 fs2 data rest sizes,
  wf_server sv -> (32 <= length g)%nat -> first_accepted (skipn 32 g) j -> used_scalar (draw (skipn 32 g) j) <> 0 ->
  agreed sv (firstn 32 g) (nmul (Z.to_nat (used_scalar (draw (skipn 32 g) j))) Gpt) ss ->
  first_flight ss fs1 -> second_flight ss fs2 -> healthy (writer_new p) ->
  Forall (fun f => zlen f <= 16384) data -> zlen fs2 + zlen data < 2 ^ 64 ->
  stream s = served ss fs1 fs2 ++ sealed_stream (k_server (s_keys ss)) (iv_server (s_keys ss)) (zlen fs2) ApplicationDataTy data ++ rest ->
  (list_sum sizes <= length (concat data))%nat ->
  exists c outs c' more, client_new m s p g = (Ok tt, c) /\ client_reads m sizes c = (map Ok outs, c') /\
    map (@length byte) outs = sizes /\ concat outs ++ more = concat data.
Proof. exact end_to_end. Qed.
Print Assumptions C25_end_to_end.
(** whatever the transport delivers: a prefix of what the server sealed, or the transport produced a forgery *)
Theorem C25_genuine : forall m s p g c, client_new m s p g = (Ok tt, c) -> exists ss, reached m s g (Complete ss) /\
  forall peer sizes, sealed_by (new_encryptor m (k_server (s_keys ss))) (iv_server (s_keys ss)) peer -> zlen peer < 2 ^ 64 ->
  forged (new_decryptor m (k_server (s_keys ss))) (iv_server (s_keys ss)) peer s \/
  exists rest, app_bytes (map fst peer) = concat (oks (fst (client_reads m sizes c))) ++ rest.
Proof. exact connection_genuine. Qed.
Print Assumptions C25_genuine.
Example ex_connection : forall m (rest : session -> bytes), exists s g ss c, client_new m s [] g = (Ok tt, c) /\ reached m s g (Complete ss) /\
  keyed m (c_reader c) (k_server (s_keys ss)) (iv_server (s_keys ss)) 1 /\ r_buf (c_reader c) = [] /\ c_buf c = [] /\ stream (r_src (c_reader c)) = rest ss.
Proof. exact plain_run. Qed.
Example ex_serving : forall m, exists c key iv, serving m c key iv 1 [[x61; x62]; []; [x63]] [].
Proof. exact serving_example. Qed.
Example ex_server : wf_server plain_server /\ first_accepted (skipn 32 one_tape) 0 /\ used_scalar (draw (skipn 32 one_tape) 0) <> 0.
Proof. split; [exact plain_wf|]. split; [exact one_accepted|]. rewrite one_scalar. discriminate. Qed.

(** ** C26 *)
Theorem C26_write : forall m key iv k buf c, keyed_w m (c_writer c) key iv k -> k + zlen buf < 2 ^ 64 ->
  exists fs x c', client_write m buf c = (x, c') /\ concat fs = buf /\ Forall legal_fragment fs /\
    c_reader c' = c_reader c /\ c_buf c' = c_buf c /\ (healthy (c_writer c) -> healthy (c_writer c')) /\
    ((x = Ok (zlen buf) /\ w_out (c_writer c') = w_out (c_writer c) ++ sealed_stream key iv k ApplicationDataTy fs /\
      keyed_w m (c_writer c') key iv (k + zlen fs)) \/
     (x = Err IoFailure /\ ~ healthy (c_writer c) /\ exists sent unsent,
        sealed_stream key iv k ApplicationDataTy fs = sent ++ unsent /\ w_out (c_writer c') = w_out (c_writer c) ++ sent)).
Proof. exact write_app. Qed.
Print Assumptions C26_write.
(** a connected client meets the hypothesis *)
Theorem C26_ready_to_write : forall m s p g c, client_new m s p g = (Ok tt, c) -> exists ss, reached m s g (Complete ss) /\
  keyed_w m (c_writer c) (k_client (s_keys ss)) (iv_client (s_keys ss)) 1 /\ (healthy (writer_new p) -> healthy (c_writer c)).
Proof. exact ready_to_write. Qed.
Print Assumptions C26_ready_to_write.

(** ** C27: refuted; data after close_notify is delivered, always *)
Theorem C27_after_close_refuted : exists m s g ss c f c', client_new m s [] g = (Ok tt, c) /\ reached m s g (Complete ss) /\
  stream (r_src (c_reader c)) = sealed_record (k_server (s_keys ss)) (iv_server (s_keys ss)) 1 AlertTy [x01; x00] ++
     sealed_record (k_server (s_keys ss)) (iv_server (s_keys ss)) 2 ApplicationDataTy f /\
  f <> [] /\ client_read m (length f) c = (Ok f, c').
Proof. exact (ex_intro _ Release (close_refuted Release)). Qed.
Print Assumptions C27_after_close_refuted.
Theorem C27_after_close_both_builds : forall m, exists s g ss c f c', client_new m s [] g = (Ok tt, c) /\ reached m s g (Complete ss) /\
  stream (r_src (c_reader c)) = sealed_record (k_server (s_keys ss)) (iv_server (s_keys ss)) 1 AlertTy [x01; x00] ++
     sealed_record (k_server (s_keys ss)) (iv_server (s_keys ss)) 2 ApplicationDataTy f /\
  f <> [] /\ client_read m (length f) c = (Ok f, c').
Proof. exact close_refuted. Qed.
Print Assumptions C27_after_close_both_builds.
Theorem C27_close_ignored : forall m c key iv k l f rest, keyed m (c_reader c) key iv k -> no_pending (c_reader c) -> c_buf c = [] ->
  k + 2 < 2 ^ 64 -> legal_fragment f ->
  stream (r_src (c_reader c)) = sealed_record key iv k AlertTy [z2b (rfc_alert_level l); x00] ++ sealed_record key iv (k + 1) ApplicationDataTy f ++ rest ->
  exists c', client_read m (length f) c = (Ok f, c').
Proof. exact data_after_close. Qed.
Print Assumptions C27_close_ignored.

(** ** C28: refuted; the error is swallowed and the next record is accepted *)
Theorem C28_swallowed_refuted : exists m s g ss c z f c1 c2, client_new m s [] g = (Ok tt, c) /\ reached m s g (Complete ss) /\
  stream (r_src (c_reader c)) = e_record ApplicationDataTy z ++ sealed_record (k_server (s_keys ss)) (iv_server (s_keys ss)) 1 ApplicationDataTy f /\
  (forall a p, z <> aead_seal (k_server (s_keys ss)) (rfc_nonce (iv_server (s_keys ss)) 1) a p) /\
  f <> [] /\ client_read m 1 c = (Ok [], c1) /\ client_read m (length f) c1 = (Ok f, c2).
Proof. exact (ex_intro _ Release (forgery_refuted Release)). Qed.
Print Assumptions C28_swallowed_refuted.
Theorem C28_swallowed_both_builds : forall m, exists s g ss c z f c1 c2, client_new m s [] g = (Ok tt, c) /\ reached m s g (Complete ss) /\
  stream (r_src (c_reader c)) = e_record ApplicationDataTy z ++ sealed_record (k_server (s_keys ss)) (iv_server (s_keys ss)) 1 ApplicationDataTy f /\
  (forall a p, z <> aead_seal (k_server (s_keys ss)) (rfc_nonce (iv_server (s_keys ss)) 1) a p) /\
  f <> [] /\ client_read m 1 c = (Ok [], c1) /\ client_read m (length f) c1 = (Ok f, c2).
Proof. exact forgery_refuted. Qed.
Print Assumptions C28_swallowed_both_builds.
Theorem C28_swallowed : forall m c key iv k t maj min z f n rest, keyed m (c_reader c) key iv k -> no_pending (c_reader c) -> c_buf c = [] ->
  k + 1 < 2 ^ 64 -> legal_fragment f -> zlen z <= 16384 + 2048 ->
  (forall p, z <> aead_seal key (rfc_nonce iv k) (rfc_ad k t maj min (zlen z - 16)) p) -> (0 < n)%nat ->
  stream (r_src (c_reader c)) = wire t maj min z ++ sealed_record key iv k ApplicationDataTy f ++ rest ->
  exists c1 c2, client_read m n c = (Ok [], c1) /\ client_read m (length f) c1 = (Ok f, c2).
Proof. exact data_after_forgery. Qed.
Print Assumptions C28_swallowed.

(** ** C29: refuted; C52 says which records are harmless *)
Theorem C29_crash_refuted : exists m s g c, client_new m s [] g = (Ok tt, c) /\ fst (client_read m 1 c) = Panic.
Proof. exact (ex_intro _ Release (crash_refuted Release)). Qed.
Print Assumptions C29_crash_refuted.
Theorem C29_crash_both_builds : forall m, exists s g c, client_new m s [] g = (Ok tt, c) /\ fst (client_read m 1 c) = Panic.
Proof. exact crash_refuted. Qed.
Print Assumptions C29_crash_both_builds.
Theorem C29_crashing_records : forall m c key iv k bs rest n, keyed m (c_reader c) key iv k -> r_buf (c_reader c) = [] -> c_buf c = [] ->
  k + 1 < 2 ^ 64 -> (0 < n)%nat -> crashing key iv k bs -> stream (r_src (c_reader c)) = bs ++ rest -> fst (client_read m n c) = Panic.
Proof. exact crashes. Qed.
Print Assumptions C29_crashing_records.
Example ex_crashing : forall key iv, crashing key iv 1 (sealed_record key iv 1 AlertTy [x02; x14]) /\
  crashing key iv 1 (sealed_record key iv 1 HandshakeTy (e_handshake hello_request)).
Proof. exact crashing_example. Qed.

(** ** C30 *)
Theorem C30_new_terminates : forall m s p g, halts (fst (client_new m s p g)).
Proof. exact new_halts. Qed.
Print Assumptions C30_new_terminates.
Theorem C30_reads_terminate : forall m s p g c sizes, client_new m s p g = (Ok tt, c) -> Forall halts (fst (client_reads m sizes c)).
Proof. exact connected_reads_halt. Qed.
Print Assumptions C30_reads_terminate.

(** ** C31 *)
(** the messages in this order; [expected_server] is the PRF over the transcript under the derived master secret *)
Theorem C31_negotiated : forall m s p g c, client_new m s p g = (Ok tt, c) -> exists ss r,
  server_flight m (reader_new s) (s_sh ss) (s_certs ss) (s_ske ss) r /\
  server_answer m (ived_reader r (s_keys ss)) (s_keys ss) (expected_server ss) (c_reader c) /\
  s_cr ss = firstn 32 g /\
  sh_version (s_sh ss) = Version x03 x03 /\ sh_suite (s_sh ss) = TLS_ECDHE_RSA_WITH_CHACHA20_POLY1305_SHA256 /\ sh_comp (s_sh ss) = CM_null /\
  exists k rest N g', tls_read i_ske (s_ske ss) = Ok (k, rest) /\ from_uncompressed_bytes m (ske_public k) = Ok (Some N) /\
    compute_keys m (s_ske ss) (skipn 32 g) = (Ok (s_cke ss, s_pms ss), g').
Proof. exact negotiated. Qed.
Print Assumptions C31_negotiated.

(** ** C32: refuted for whole handshakes too *)
Theorem C32_handshake_refuted : exists m s g c ss k rest, client_new m s [] g = (Ok tt, c) /\ reached m s g (Complete ss) /\
  tls_read i_ske (s_ske ss) = Ok (k, rest) /\ ske_curve k = secp384r1.
Proof. exact (ex_intro _ Release (other_curve_connects Release secp384r1)). Qed.
Print Assumptions C32_handshake_refuted.
Theorem C32_every_curve_accepted : forall m cv, exists s g c ss k rest, client_new m s [] g = (Ok tt, c) /\ reached m s g (Complete ss) /\
  tls_read i_ske (s_ske ss) = Ok (k, rest) /\ ske_curve k = cv.
Proof. exact other_curve_connects. Qed.
Print Assumptions C32_every_curve_accepted.

(** ** C33 *)
Theorem C33_emissions : forall m s p g x c, client_new m s p g = (x, c) -> exists st, reached m s g st /\
  (w_out (c_writer c) = stage_out st /\ (x = Ok tt -> exists ss, st = Complete ss) \/
   (exists k, x = Err k /\ w_out (c_writer c) = stage_out st ++ alert_out st k) \/
   (x = Err IoFailure /\ cut p (stage_out st) (w_out (c_writer c))) \/
   (exists k sent, x = Err IoFailure /\ w_out (c_writer c) = stage_out st ++ sent /\ cut p (alert_out st k) sent)).
Proof. exact emissions. Qed.
Print Assumptions C33_emissions.

(** ** C34 *)
Theorem C34_alert : forall m s p g k c, client_new m s p g = (Err k, c) -> k <> IoFailure ->
  exists st, reached m s g st /\ stopped m s g st /\ w_out (c_writer c) = stage_out st ++ alert_out st k.
Proof. exact alert_sent. Qed.
Print Assumptions C34_alert.
Theorem C34_transport_failure : forall m s p g c, client_new m s p g = (Err IoFailure, c) -> healthy (writer_new p) ->
  exists st, reached m s g st /\ stopped m s g st /\ w_out (c_writer c) = stage_out st.
Proof. exact transport_silent. Qed.
Print Assumptions C34_transport_failure.
(** a complete record with a complete but too short ServerHello: a decoding failure, yet no alert *)
Theorem C34_truncated_refuted : exists m s g c, clean s /\ stream s = e_record HandshakeTy [x02; x00; x00; x01; x03] /\
  client_new m s [] g = (Err IoFailure, c) /\ w_out (c_writer c) = flight_hello (firstn 32 g).
Proof. exact (ex_intro _ Release (truncated_refuted Release)). Qed.
Print Assumptions C34_truncated_refuted.
Theorem C34_truncated_both_builds : forall m, exists s g c, clean s /\ stream s = e_record HandshakeTy [x02; x00; x00; x01; x03] /\
  client_new m s [] g = (Err IoFailure, c) /\ w_out (c_writer c) = flight_hello (firstn 32 g).
Proof. exact truncated_refuted. Qed.
Print Assumptions C34_truncated_both_builds.

(** ** C35 *)
Theorem C35_completes : forall m sv g j ss s p fs1 fs2 rest, wf_server sv -> (32 <= length g)%nat -> first_accepted (skipn 32 g) j ->
  used_scalar (draw (skipn 32 g) j) <> 0 ->
  agreed sv (firstn 32 g) (nmul (Z.to_nat (used_scalar (draw (skipn 32 g) j))) Gpt) ss ->
  first_flight ss fs1 -> second_flight ss fs2 -> stream s = served ss fs1 fs2 ++ rest -> healthy (writer_new p) ->
  exists c, client_new m s p g = (Ok tt, c) /\ reached m s g (Complete ss) /\ w_out (c_writer c) = stage_out (Complete ss) /\
    keyed m (c_reader c) (k_server (s_keys ss)) (iv_server (s_keys ss)) (zlen fs2) /\
    keyed_w m (c_writer c) (k_client (s_keys ss)) (iv_client (s_keys ss)) 1 /\ healthy (c_writer c) /\
    r_buf (c_reader c) = [] /\ c_buf c = [] /\ stream (r_src (c_reader c)) = rest.
Proof. exact honest_connects. Qed.
Print Assumptions C35_completes.
(** the server's view of the run exists: no product of the two scalars is the point at infinity *)
Theorem C35_server_computes : forall sv cr e, wf_server sv -> 0 < e < 2 ^ 56 -> exists ss, agreed sv cr (nmul (Z.to_nat e) Gpt) ss.
Proof. exact server_agrees. Qed.
Print Assumptions C35_server_computes.
Theorem C35_scalar_range : forall x, 0 <= used_scalar x < 2 ^ 56.
Proof. exact used_range. Qed.
Print Assumptions C35_scalar_range.
(** the excluded randomness: the client sends (0,0), which is not on the curve *)
Theorem C35_zero_scalar_refuted : exists m sv s g ss, wf_server sv /\ clean s /\ (32 <= length g)%nat /\ enough_randomness (skipn 32 g) /\
  (exists fs, first_flight ss fs /\ stream s = concat (map (e_record HandshakeTy) fs)) /\
  s_sh ss = sv_hello sv /\ s_certs ss = sv_certs sv /\
  (exists sx sy, nmul (Z.to_nat (sv_secret sv)) Gpt = Aff sx sy /\ s_ske ss = e_ske (Ske (sv_curve sv) (sec1 sx sy) (sv_sig sv))) /\
  reached m s g (Complete ss) /\ s_cke ss = x41 :: sec1 f0 f0 /\ ~ oncurve (Aff f0 f0).
Proof. exact (ex_intro _ Release (zero_scalar_refuted Release)). Qed.
Print Assumptions C35_zero_scalar_refuted.
Theorem C35_zero_scalar_both_builds : forall m, exists sv s g ss, wf_server sv /\ clean s /\ (32 <= length g)%nat /\ enough_randomness (skipn 32 g) /\
  (exists fs, first_flight ss fs /\ stream s = concat (map (e_record HandshakeTy) fs)) /\
  s_sh ss = sv_hello sv /\ s_certs ss = sv_certs sv /\
  (exists sx sy, nmul (Z.to_nat (sv_secret sv)) Gpt = Aff sx sy /\ s_ske ss = e_ske (Ske (sv_curve sv) (sec1 sx sy) (sv_sig sv))) /\
  reached m s g (Complete ss) /\ s_cke ss = x41 :: sec1 f0 f0 /\ ~ oncurve (Aff f0 f0).
Proof. exact zero_scalar_refuted. Qed.
Print Assumptions C35_zero_scalar_both_builds.
(** RFC 5246 7.4.4 lets a server ask for a certificate; this client gives up *)
Theorem C35_certificate_request_refuted : exists m sv cq s g c, wf_server sv /\ wf_handshake (certificate_request cq) /\ clean s /\
  (32 <= length g)%nat /\ enough_randomness (skipn 32 g) /\
  (exists sx sy fs, nmul (Z.to_nat (sv_secret sv)) Gpt = Aff sx sy /\ Forall legal_fragment fs /\
     concat fs = concat (map e_handshake [server_hello_msg (sv_hello sv); certificate (sv_certs sv);
       server_key_exchange (e_ske (Ske (sv_curve sv) (sec1 sx sy) (sv_sig sv))); certificate_request cq; server_hello_done]) /\
     stream s = concat (map (e_record HandshakeTy) fs)) /\
  client_new m s [] g = (Err UnexpectedMessage, c).
Proof. exact (ex_intro _ Release (request_refuted Release)). Qed.
Print Assumptions C35_certificate_request_refuted.
Theorem C35_certificate_request_both_builds : forall m, exists sv cq s g c, wf_server sv /\ wf_handshake (certificate_request cq) /\ clean s /\
  (32 <= length g)%nat /\ enough_randomness (skipn 32 g) /\
  (exists sx sy fs, nmul (Z.to_nat (sv_secret sv)) Gpt = Aff sx sy /\ Forall legal_fragment fs /\
     concat fs = concat (map e_handshake [server_hello_msg (sv_hello sv); certificate (sv_certs sv);
       server_key_exchange (e_ske (Ske (sv_curve sv) (sec1 sx sy) (sv_sig sv))); certificate_request cq; server_hello_done]) /\
     stream s = concat (map (e_record HandshakeTy) fs)) /\
  client_new m s [] g = (Err UnexpectedMessage, c).
Proof. exact request_refuted. Qed.
Print Assumptions C35_certificate_request_both_builds.

(** ** C50: keys passed to HMAC by the client *)
Theorem C50_hmac_keys : forall m s g ss, reached m s g (Complete ss) ->
  length (s_pms ss) = 32%nat /\ length (s_master ss) = 48%nat /\
  forall key msg, key = s_pms ss \/ key = s_master ss -> zlen msg + 64 < 2 ^ 61 -> exists t, hmac_sha256 m key msg = Ok t.
Proof. exact hmac_keys. Qed.
Print Assumptions C50_hmac_keys.

(** ** C51: everything that can make construction panic *)
Theorem C51_new_panics : forall m s p g c, zlen (all_bytes s) + 1 < 2 ^ 64 -> client_new m s p g = (Panic, c) ->
  (length g < 32)%nat \/ ~ enough_randomness (skipn 32 g) \/
  (m = Debug /\ exists skx k rest, exchanged m s skx /\ tls_read i_ske skx = Ok (k, rest) /\ from_uncompressed_bytes Debug (ske_public k) = Panic) \/
  (exists ss k t b, reached m s g (Complete ss) /\ 0 <= k /\
     sealed_in s (k_server (s_keys ss)) (iv_server (s_keys ss)) k t b /\ 16384 < zlen b).
Proof. exact new_panics'. Qed.
Print Assumptions C51_new_panics.
(** so nobody without the session keys can make a release build panic during construction *)
Theorem C51_release_panics : forall s p g c, zlen (all_bytes s) + 1 < 2 ^ 64 -> (32 <= length g)%nat -> enough_randomness (skipn 32 g) ->
  client_new Release s p g = (Panic, c) ->
  exists ss k t b, reached Release s g (Complete ss) /\ 0 <= k /\ sealed_in s (k_server (s_keys ss)) (iv_server (s_keys ss)) k t b /\ 16384 < zlen b.
Proof. exact release_panics. Qed.
Print Assumptions C51_release_panics.
Example ex_new_panics : fst (client_new Release [] [] []) = Panic.
Proof. reflexivity. Qed.

(** ** C52: reads panic only on records sealed with the server's key that are not application data or are over-long *)
Theorem C52_reads_safe : forall m s p g c sizes, zlen (all_bytes s) + 1 < 2 ^ 64 -> client_new m s p g = (Ok tt, c) -> no_pending (c_reader c) ->
  exists ss, reached m s g (Complete ss) /\
    (alien (r_src (c_reader c)) (k_server (s_keys ss)) (iv_server (s_keys ss)) 0 \/ Forall fine (fst (client_reads m sizes c))).
Proof. exact connected_reads_safe. Qed.
Print Assumptions C52_reads_safe.
(** without the assumption on leftover bytes: a server that seals its Finished and application data cannot be turned against its client, unless the last three to six bytes of its verify_data happen to be the first bytes of the Finished itself *)
Theorem C52_reads_safe_unless : forall m s p g c sizes, zlen (all_bytes s) + 1 < 2 ^ 64 -> client_new m s p g = (Ok tt, c) ->
  exists ss before fs bs, reached m s g (Complete ss) /\ sealed_run (k_server (s_keys ss)) (iv_server (s_keys ss)) 0 fs bs /\
    all_bytes s = before ++ bs ++ all_bytes (r_src (c_reader c)) /\
    (Forall fine (fst (client_reads m sizes c)) \/
     alien (r_src (c_reader c)) (k_server (s_keys ss)) (iv_server (s_keys ss)) (zlen fs) \/
     concat fs <> e_handshake (s_server_fin ss) \/
     exists n, (3 <= n <= 6)%nat /\ skipn (12 - n) (expected_server ss) = firstn n (e_handshake (s_server_fin ss))).
Proof. exact reads_safe_unless. Qed.
Print Assumptions C52_reads_safe_unless.
Example ex_alien : forall m, exists s g ss c, client_new m s [] g = (Ok tt, c) /\ reached m s g (Complete ss) /\
  r_buf (c_reader c) = [] /\ stream (r_src (c_reader c)) = [].
Proof.
  intros m. destruct (plain_run m (fun _ => [])) as (s & g & ss & c & E & R & _ & B & _ & S). exists s, g, ss, c. auto.
Qed.

(** ** C53: reads and writes do not interfere, in any interleaving *)
Theorem C53_reads_alone : forall m l c w g,
  fst (calls m (filter is_read l) (Client (c_reader c) w g (c_buf c))) = filter is_got (fst (calls m l c)) /\
  let c1 := snd (calls m (filter is_read l) (Client (c_reader c) w g (c_buf c))) in let c2 := snd (calls m l c) in
  c_reader c1 = c_reader c2 /\ c_buf c1 = c_buf c2 /\ c_writer c1 = w /\ c_rng c1 = g.
Proof. exact calls_reads. Qed.
Print Assumptions C53_reads_alone.
Theorem C53_writes_alone : forall m l c r b,
  fst (calls m (filter is_write l) (Client r (c_writer c) (c_rng c) b)) = filter is_wrote (fst (calls m l c)) /\
  let c1 := snd (calls m (filter is_write l) (Client r (c_writer c) (c_rng c) b)) in let c2 := snd (calls m l c) in
  c_writer c1 = c_writer c2 /\ c_rng c1 = c_rng c2 /\ c_reader c1 = r /\ c_buf c1 = b.
Proof. exact calls_writes. Qed.
Print Assumptions C53_writes_alone.
Theorem C53_reads_are_calls : forall m sizes c, Forall fine (fst (client_reads m sizes c)) ->
  calls m (map Read sizes) c = (map Got (fst (client_reads m sizes c)), snd (client_reads m sizes c)).
Proof. exact calls_of_reads. Qed.
Print Assumptions C53_reads_are_calls.

(** ** C54: everything sent after the handshake is sealed under consecutive sequence numbers *)
Theorem C54_sealed_output : forall m s p g c l as_ c', client_new m s p g = (Ok tt, c) -> 1 + cost l < 2 ^ 64 -> calls m l c = (as_, c') ->
  (healthy (writer_new p) -> Forall2 good_answer l as_) /\
  (Forall2 good_answer l as_ -> exists ss it, reached m s g (Complete ss) /\ renders l it /\
     w_out (c_writer c') = stage_out (Complete ss) ++ sealed_items (k_client (s_keys ss)) (iv_client (s_keys ss)) 1 it).
Proof. exact connected_emit. Qed.
Print Assumptions C54_sealed_output.
Example ex_renders : renders [Write [x61; x62]; Read 5; Close] [(ApplicationDataTy, [x61; x62]); (AlertTy, [x02; x00])].
Proof.
  apply (R_write [x61; x62] [[x61; x62]] _ [_]); [reflexivity|repeat constructor; cbv; discriminate|]. repeat constructor.
Qed.

(** ** C55: handshake messages out of order are refused with unexpected_message *)
Theorem C55_wrong_message : forall m s p g h r', healthy (writer_new p) -> (32 <= length g)%nat ->
  (read_handshake m (reader_new s) = (Ok h, r') /\ (forall x, h <> server_hello_msg x) \/
   (exists sh r1, read_handshake m (reader_new s) = (Ok (server_hello_msg sh), r1) /\ check_server_hello sh = Ok tt /\
      read_handshake m r1 = (Ok h, r') /\ (forall x, h <> certificate x)) \/
   (exists sh certs r1 r2, read_handshake m (reader_new s) = (Ok (server_hello_msg sh), r1) /\ check_server_hello sh = Ok tt /\
      read_handshake m r1 = (Ok (certificate certs), r2) /\ read_handshake m r2 = (Ok h, r') /\ (forall x, h <> server_key_exchange x)) \/
   (exists sh certs skx r1 r2 r3 k g', read_handshake m (reader_new s) = (Ok (server_hello_msg sh), r1) /\ check_server_hello sh = Ok tt /\
      read_handshake m r1 = (Ok (certificate certs), r2) /\ read_handshake m r2 = (Ok (server_key_exchange skx), r3) /\
      compute_keys m skx (skipn 32 g) = (Ok k, g') /\ read_handshake m r3 = (Ok h, r') /\ h <> server_hello_done)) ->
  exists c, client_new m s p g = (Err UnexpectedMessage, c) /\
    w_out (c_writer c) = flight_hello (firstn 32 g) ++ alert_out (Hello (firstn 32 g)) UnexpectedMessage.
Proof. exact wrong_message. Qed.
Print Assumptions C55_wrong_message.
Example ex_wrong_message : forall m, exists r', read_handshake m (reader_new [RData [x16; x03; x03; x00; x04; x00; x00; x00; x00]]) = (Ok hello_request, r').
Proof. intros m. destruct m; eexists; vm_compute; reflexivity. Qed.

(** ** C56: the server's public key is on the curve: refuted in release builds, true in debug builds *)
Theorem C56_off_curve_refuted : exists s g c ss k rest N, client_new Release s [] g = (Ok tt, c) /\ reached Release s g (Complete ss) /\
  tls_read i_ske (s_ske ss) = Ok (k, rest) /\ from_uncompressed_bytes Release (ske_public k) = Ok (Some N) /\ ~ oncurve (Aff (fv (nx N)) (fv (ny N))).
Proof. exact off_curve_connects. Qed.
Print Assumptions C56_off_curve_refuted.
Theorem C56_debug_on_curve : forall s p g c, client_new Debug s p g = (Ok tt, c) -> exists ss k rest N,
  reached Debug s g (Complete ss) /\ tls_read i_ske (s_ske ss) = Ok (k, rest) /\ from_uncompressed_bytes Debug (ske_public k) = Ok (Some N) /\
  oncurve (Aff (fv (nx N)) (fv (ny N))).
Proof. exact debug_key_on_curve. Qed.
Print Assumptions C56_debug_on_curve.

(** ** C57: certificates and signatures are verified: refuted; any certificates and any signature go through *)
Theorem C57_unverified_refuted : exists m s g c ss k rest, client_new m s [] g = (Ok tt, c) /\ reached m s g (Complete ss) /\ s_certs ss = [] /\
  tls_read i_ske (s_ske ss) = Ok (k, rest) /\ ske_signed k = DigSigned (SigHash H_sha256 S_rsa) [].
Proof. exact (ex_intro _ Release (unverified Release [] _ (proj1 (proj2 plain_wf)) (proj2 (proj2 (proj2 plain_wf))))). Qed.
Print Assumptions C57_unverified_refuted.
Theorem C57_nothing_verified : forall m certs sg, wf_handshake (certificate certs) -> wf_digitally_signed sg -> exists s g c ss k rest,
  client_new m s [] g = (Ok tt, c) /\ reached m s g (Complete ss) /\ s_certs ss = certs /\
  tls_read i_ske (s_ske ss) = Ok (k, rest) /\ ske_signed k = sg.
Proof. exact unverified. Qed.
Print Assumptions C57_nothing_verified.
Example ex_certificates : wf_handshake (certificate []) /\ wf_digitally_signed (DigSigned (SigHash H_sha256 S_rsa) []).
Proof. exact (conj (proj1 (proj2 plain_wf)) (proj2 (proj2 (proj2 plain_wf)))). Qed.

(** ** C58: every failure of the handshake is reported with its own error, and nothing else fails *)
Theorem C58_faults_reported : forall m s p g st k, healthy (writer_new p) -> (32 <= length g)%nat -> fault m s g st k ->
  exists c, client_new m s p g = (Err k, c) /\ w_out (c_writer c) = stage_out st ++ signal st k.
Proof. exact faults. Qed.
Print Assumptions C58_faults_reported.
Theorem C58_errors_explained : forall m s p g k c, healthy (writer_new p) -> client_new m s p g = (Err k, c) -> exists st, fault m s g st k.
Proof. exact errors_are_faults. Qed.
Print Assumptions C58_errors_explained.
Example ex_fault_order : forall m g, fault m [RData [x16; x03; x03; x00; x04; x00; x00; x00; x00]] g (Hello (firstn 32 g)) UnexpectedMessage.
Proof.
  intros m g. apply F_first, FF_hello. right. split; [reflexivity|]. exists hello_request. destruct m; (eexists; split; [vm_compute; reflexivity|]; intros (sh & H); discriminate H).
Qed.
(** a ServerHello that picks TLS 1.1 *)
Example ex_fault_version : forall m g, fault m [RData ([x16; x03; x03; x00; x2a; x02; x00; x00; x26; x03; x02] ++ repeat x05 32 ++ [x00; xcc; xa8; x00])] g (Hello (firstn 32 g)) IllegalParameter.
Proof.
  intros m g. apply F_first. destruct m; (eapply FF_parameters; [vm_compute; reflexivity|]; intros (H & _); cbn in H; discriminate H).
Qed.
Example ex_fault_nothing : forall m g, fault m [] g (Hello (firstn 32 g)) IoFailure.
Proof. intros m g. apply F_first, FF_hello. left. destruct m; eexists; vm_compute; reflexivity. Qed.
