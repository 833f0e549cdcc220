(** Properties of src/client.rs: C59-C67. *)
From Verif Require Import Spec_Client3 P_Ecdhe P_Client P_Client2 P_Client4 P_Pending P_Agree P_Bound P_Rand P_Client6 P_Eof P_KeySpace P_Peer.
From Coq Require Import Lia.
Import String.StringSyntax.
Local Open Scope string_scope.
Local Open Scope list_scope.
Local Open Scope Z_scope.

(** ** C59: a completed handshake agrees with the server about every message *)
(** a server whose view of the messages is [T] and that seals its own Finished under the keys the client uses *)
Theorem C59_agreement : forall m s p g c, zlen (all_bytes s) + 1 < 2 ^ 64 -> client_new m s p g = (Ok tt, c) ->
  exists ss, reached m s g (Complete ss) /\ forall ms T, Forall wf_handshake T ->
    let T0 := s_msgs ss ++ [s_client_fin ss] in let v := verify_data ms "server finished" T in
    (ms = s_master ss /\ T = T0) \/
    forged_first s (k_server (s_keys ss)) (iv_server (s_keys ss)) (e_handshake (finished v)) \/
    spliced (e_handshake (s_server_fin ss)) (e_handshake (finished v)) \/
    hash_collision (transcript_bytes T) (transcript_bytes T0) \/
    finished_collision "server finished" ms (SHA256 (transcript_bytes T)) (s_master ss) (SHA256 (transcript_bytes T0)).
Proof. exact agreement. Qed.
Print Assumptions C59_agreement.
Theorem C59_finished : forall m s p g c, zlen (all_bytes s) + 1 < 2 ^ 64 -> client_new m s p g = (Ok tt, c) ->
  exists ss, reached m s g (Complete ss) /\ forall v, length v = 12%nat ->
    v = expected_server ss \/ forged_first s (k_server (s_keys ss)) (iv_server (s_keys ss)) (e_handshake (finished v)) \/
    spliced (e_handshake (s_server_fin ss)) (e_handshake (finished v)).
Proof. exact finished_agrees. Qed.
Print Assumptions C59_finished.
Theorem C59_transcripts : forall l ms1 T1 ms2 T2, Forall wf_handshake T1 -> Forall wf_handshake T2 ->
  verify_data ms1 l T1 = verify_data ms2 l T2 ->
  (ms1 = ms2 /\ T1 = T2) \/ hash_collision (transcript_bytes T1) (transcript_bytes T2) \/
  finished_collision l ms1 (SHA256 (transcript_bytes T1)) ms2 (SHA256 (transcript_bytes T2)).
Proof. exact transcripts_agree. Qed.
Print Assumptions C59_transcripts.
(** the hello a man in the middle would like: another random *)
Example ex_tampered : transcript_bytes [offer (repeat x00 32); server_hello_done] <> transcript_bytes [offer (repeat x01 32); server_hello_done].
Proof. vm_compute. discriminate. Qed.
Example ex_connected : forall m, exists s g c, zlen (all_bytes s) + 1 < 2 ^ 64 /\ client_new m s [] g = (Ok tt, c).
Proof. intros m. destruct (short_run m) as (s & g & c & ss & L & E & _). exists s, g, c. split; [lia|exact E]. Qed.
(** what a splice looks like: the first message ends with the beginning of the second one *)
Example ex_spliced : spliced ([x14; x00; x00; x0c] ++ [x14; x00; x00; x0c; x00; x01; x02; x03; x04; x05; x06; x07])
                             ([x14; x00; x00; x0c] ++ [x00; x01; x02; x03; x04; x05; x06; x07; x08; x09; x0a; x0b]).
Proof. exists 4%nat. split; [lia|reflexivity]. Qed.

(** ** C60: the buffers stay below a fixed size, whatever arrives *)
Theorem C60_construction : forall m s p g x c, client_new m s p g = (x, c) -> within_limits c.
Proof. exact new_bound. Qed.
Print Assumptions C60_construction.
Theorem C60_any_history : forall m l c as_ c', within_limits c -> calls m l c = (as_, c') -> within_limits c'.
Proof. exact calls_bound. Qed.
Print Assumptions C60_any_history.
Theorem C60_messages : forall m r x r', zlen (r_buf r) <= handshake_limit -> read_message m r = (x, r') ->
  zlen (r_buf r') <= handshake_limit /\ (forall d, x = Ok (ApplicationDataMessage d) -> zlen d <= 2 ^ 14).
Proof. exact read_message_bound. Qed.
Print Assumptions C60_messages.
(** any amount below 16 MiB is kept while a message that long may be arriving *)
Theorem C60_limit_needed : forall body, zlen body < 2 ^ 24 - 1 ->
  get_message ([x14; xff; xff; xff] ++ body) = (Ok None, [x14; xff; xff; xff] ++ body).
Proof. exact limit_incomplete. Qed.
Print Assumptions C60_limit_needed.
Example ex_limit : handshake_limit = 16793602. Proof. reflexivity. Qed.
Example ex_within : within_limits (client_init [RData [x16; x03; x03]] [] []). Proof. split; cbn; discriminate. Qed.
(** an incomplete message is kept *)
Example ex_kept : forall m, exists r', read_message m (reader_new [RData [x16; x03; x03; x00; x05; x02; x00; x00; x02; x03]]) = (Err IoFailure, r') /\ zlen (r_buf r') = 5.
Proof. intros m. destruct m; eexists; split; vm_compute; reflexivity. Qed.

(** ** C61: every random byte is used once: the first 32 for the client random, the next groups for the private key *)
Theorem C61_only_used_bytes_matter : forall m s p g x c, client_new m s p g = (x, c) -> fine x ->
  exists used, g = used ++ c_rng c /\ forall g2, client_new m s p (used ++ g2) = (x, set_rng c g2).
Proof. exact new_tape. Qed.
Print Assumptions C61_only_used_bytes_matter.
Theorem C61_amount : forall m s p g c, client_new m s p g = (Ok tt, c) ->
  (32 <= length g)%nat /\ exists j, first_accepted (skipn 32 g) j /\ c_rng c = skipn (32 + 32 * S j) g.
Proof. exact new_uses. Qed.
Print Assumptions C61_amount.
Theorem C61_calls_use_none : forall m l c as_ c', calls m l c = (as_, c') -> c_rng c' = c_rng c.
Proof. exact calls_quiet. Qed.
Print Assumptions C61_calls_use_none.
Example ex_tape : forall m, exists s c, client_new m s [] one_tape = (Ok tt, c) /\ first_accepted (skipn 32 one_tape) 0.
Proof. intros m. destruct (conforming_run m plain_server (fun _ => []) plain_wf) as (s & ss & c & _ & _ & E & _). exists s, c. split; [exact E|exact one_accepted]. Qed.

(** ** C62: after [close] nothing more is sent: false *)
Theorem C62_after_close_refuted : exists m s g c c' more, client_new m s [] g = (Ok tt, c) /\
  calls m [Close; Write [x61]] c = ([Closed (Ok tt); Wrote (Ok 1)], c') /\
  w_out (c_writer c') = w_out (c_writer (snd (calls m [Close] c))) ++ more /\ more <> [].
Proof. exact (ex_intro _ Release (closed_sends Release)). Qed.
Print Assumptions C62_after_close_refuted.
Theorem C62_after_close_both_builds : forall m, exists s g c c' more, client_new m s [] g = (Ok tt, c) /\
  calls m [Close; Write [x61]] c = ([Closed (Ok tt); Wrote (Ok 1)], c') /\
  w_out (c_writer c') = w_out (c_writer (snd (calls m [Close] c))) ++ more /\ more <> [].
Proof. exact closed_sends. Qed.
Print Assumptions C62_after_close_both_builds.
(** a write after the close goes out like any other, and the close itself is sent with level fatal *)
Theorem C62_writes_after_close : forall m s p g c buf, client_new m s p g = (Ok tt, c) -> healthy (writer_new p) -> 2 + zlen buf < 2 ^ 64 ->
  exists ss fs c', reached m s g (Complete ss) /\ concat fs = buf /\ Forall legal_fragment fs /\
    calls m [Close; Write buf] c = ([Closed (Ok tt); Wrote (Ok (zlen buf))], c') /\
    w_out (c_writer c') = stage_out (Complete ss) ++ sealed_record (k_client (s_keys ss)) (iv_client (s_keys ss)) 1 AlertTy [x02; x00] ++
      sealed_stream (k_client (s_keys ss)) (iv_client (s_keys ss)) 2 ApplicationDataTy fs.
Proof. exact writes_after_close. Qed.
Print Assumptions C62_writes_after_close.

(** ** C63: extensions that were not asked for are refused: false *)
(** twice the same extension, not among those of the ClientHello (RFC 5246 7.4.1.4) *)
Theorem C63_unsolicited_refuted : exists m s g c ss ty d, client_new m s [] g = (Ok tt, c) /\ reached m s g (Complete ss) /\
  sh_exts (s_sh ss) = Some [ext_unknown ty d; ext_unknown ty d] /\ ~ In ty [10; 11; 13].
Proof. exact (ex_intro _ Release (unsolicited Release)). Qed.
Print Assumptions C63_unsolicited_refuted.
Theorem C63_unsolicited_both_builds : forall m, exists s g c ss ty d, client_new m s [] g = (Ok tt, c) /\ reached m s g (Complete ss) /\
  sh_exts (s_sh ss) = Some [ext_unknown ty d; ext_unknown ty d] /\ ~ In ty [10; 11; 13].
Proof. exact unsolicited. Qed.
Print Assumptions C63_unsolicited_both_builds.
(** extensions and session id of the ServerHello play no role *)
Theorem C63_extensions_ignored : forall m x sid, wf_exts x -> zlen sid <= 32 -> exists s g c ss,
  client_new m s [] g = (Ok tt, c) /\ reached m s g (Complete ss) /\ sh_exts (s_sh ss) = x /\ sh_session (s_sh ss) = sid.
Proof. exact extensions_ignored. Qed.
Print Assumptions C63_extensions_ignored.
Example ex_offer_extensions : match offer (repeat x00 32) with client_hello_msg h => match ch_exts h with Some l => length l = 3%nat | None => False end | _ => False end.
Proof. reflexivity. Qed.

(** ** C64: the end of the data is told from a cut connection: false *)
(** the server sent two records, the second one was cut, and all reads succeed *)
Theorem C64_truncation_refuted : exists m s g ss c sent rest, client_new m s [] g = (Ok tt, c) /\ reached m s g (Complete ss) /\ clean s /\
  sent = sealed_stream (k_server (s_keys ss)) (iv_server (s_keys ss)) 1 ApplicationDataTy [[x61]; [x62]] /\
  sent = stream (r_src (c_reader c)) ++ rest /\ rest <> [] /\
  fst (client_reads m [8; 8; 8]%nat c) = [Ok [x61]; Ok []; Ok []].
Proof. exact (ex_intro _ Release (truncated Release)). Qed.
Print Assumptions C64_truncation_refuted.
Theorem C64_truncation_both_builds : forall m, exists s g ss c sent rest, client_new m s [] g = (Ok tt, c) /\ reached m s g (Complete ss) /\ clean s /\
  sent = sealed_stream (k_server (s_keys ss)) (iv_server (s_keys ss)) 1 ApplicationDataTy [[x61]; [x62]] /\
  sent = stream (r_src (c_reader c)) ++ rest /\ rest <> [] /\
  fst (client_reads m [8; 8; 8]%nat c) = [Ok [x61]; Ok []; Ok []].
Proof. exact truncated. Qed.
Print Assumptions C64_truncation_both_builds.
(** an orderly close and a cut anywhere in the next record look the same to the application *)
Theorem C64_indistinguishable : forall m key iv k sizes c1 c2 rest1 rest2 fs,
  serving m c1 key iv k fs rest1 -> clean (r_src (c_reader c1)) -> ending key iv (k + zlen fs) rest1 ->
  serving m c2 key iv k fs rest2 -> clean (r_src (c_reader c2)) -> ending key iv (k + zlen fs) rest2 ->
  k + zlen fs + 1 < 2 ^ 64 -> c_buf c1 = c_buf c2 -> fst (client_reads m sizes c1) = fst (client_reads m sizes c2).
Proof. exact same_ends. Qed.
Print Assumptions C64_indistinguishable.
(** namely all the data and then empty results *)
Theorem C64_answers : forall m key iv rest sizes c k fs, serving m c key iv k fs rest -> clean (r_src (c_reader c)) -> k + zlen fs + 1 < 2 ^ 64 ->
  ending key iv (k + zlen fs) rest -> fst (client_reads m sizes c) = map Ok (pieces sizes (c_buf c ++ concat fs)).
Proof. exact ended_reads. Qed.
Print Assumptions C64_answers.
Theorem C64_never_an_error : forall m n c k, fst (client_read m n c) <> Err k.
Proof. exact never_errs. Qed.
Print Assumptions C64_never_an_error.
Example ex_pieces : pieces [2; 5; 1]%nat [x61; x62; x63] = [[x61; x62]; [x63]; []]. Proof. reflexivity. Qed.
Example ex_ending : forall key iv k, ending key iv k [] /\ ending key iv k [x17; x03; x03; x00; x20; x01].
Proof.
  intros key iv k. split.
  - apply End_cut with (more := wire ApplicationDataTy x03 x03 [x00]) (t := ApplicationDataTy) (maj := x03) (min := x03) (f := [x00]); [reflexivity|discriminate|discriminate].
  - apply End_cut with (more := repeat x01 31) (t := ApplicationDataTy) (maj := x03) (min := x03) (f := repeat x01 32); [reflexivity|discriminate|discriminate].
Qed.

(** ** C65: a read returns once there is data: false *)
(** the first record was enough to return, but the second one was waited for *)
Theorem C65_waits_refuted : exists m s g ss c c', client_new m s [] g = (Ok tt, c) /\ reached m s g (Complete ss) /\
  stream (r_src (c_reader c)) = sealed_stream (k_server (s_keys ss)) (iv_server (s_keys ss)) 1 ApplicationDataTy [[x61]; [x62]] /\
  client_read m 8 c = (Ok [x61; x62], c').
Proof. exact (ex_intro _ Release (waits Release)). Qed.
Print Assumptions C65_waits_refuted.
Theorem C65_waits_both_builds : forall m, exists s g ss c c', client_new m s [] g = (Ok tt, c) /\ reached m s g (Complete ss) /\
  stream (r_src (c_reader c)) = sealed_stream (k_server (s_keys ss)) (iv_server (s_keys ss)) 1 ApplicationDataTy [[x61]; [x62]] /\
  client_read m 8 c = (Ok [x61; x62], c').
Proof. exact waits. Qed.
Print Assumptions C65_waits_both_builds.
(** a read that does not fill its buffer saw the record layer fail, and dropped the error *)
Theorem C65_short_only_after_failure : forall m n c d c', client_read m n c = (Ok d, c') -> (length d < n)%nat ->
  c_buf c' = [] /\ exists r k, read_application_data m r = (Err k, c_reader c').
Proof. exact short_read. Qed.
Print Assumptions C65_short_only_after_failure.
Example ex_short : forall m, exists s g ss c d c', client_new m s [] g = (Ok tt, c) /\ reached m s g (Complete ss) /\ client_read m 8 c = (Ok d, c') /\ length d = 2%nat.
Proof. intros m. destruct (waits m) as (s & g & ss & c & c' & E & R & _ & C). exists s, g, ss, c, [x61; x62], c'. auto. Qed.

(** ** C66: all of the private value goes into the key exchange: false *)
(** two private values, one connection: keys, output and all *)
Theorem C66_truncated_scalar_refuted : exists m s g1 g2 c1 t', firstn 32 g1 = firstn 32 g2 /\ first_accepted (skipn 32 g1) 0 /\ first_accepted (skipn 32 g2) 0 /\
  draw (skipn 32 g1) 0 <> draw (skipn 32 g2) 0 /\
  client_new m s [] g1 = (Ok tt, c1) /\ client_new m s [] g2 = (Ok tt, set_rng c1 t').
Proof. exact (ex_intro _ Release (same_connection Release)). Qed.
Print Assumptions C66_truncated_scalar_refuted.
Theorem C66_truncated_scalar_both_builds : forall m, exists s g1 g2 c1 t', firstn 32 g1 = firstn 32 g2 /\ first_accepted (skipn 32 g1) 0 /\ first_accepted (skipn 32 g2) 0 /\
  draw (skipn 32 g1) 0 <> draw (skipn 32 g2) 0 /\
  client_new m s [] g1 = (Ok tt, c1) /\ client_new m s [] g2 = (Ok tt, set_rng c1 t').
Proof. exact same_connection. Qed.
Print Assumptions C66_truncated_scalar_both_builds.
(** whatever the server does, the connection depends on 56 bits of the private value only (C35_scalar_range) *)
Theorem C66_connection_is_56_bits : forall m s p cr t1 t2 j1 j2, length cr = 32%nat -> first_accepted t1 j1 -> first_accepted t2 j2 ->
  used_scalar (draw t1 j1) = used_scalar (draw t2 j2) ->
  exists t', client_new m s p (cr ++ t2) = (fst (client_new m s p (cr ++ t1)), set_rng (snd (client_new m s p (cr ++ t1))) t').
Proof. exact key_space. Qed.
Print Assumptions C66_connection_is_56_bits.
Theorem C66_keys_are_56_bits : forall m data g1 g2 j1 j2, first_accepted g1 j1 -> first_accepted g2 j2 -> used_scalar (draw g1 j1) = used_scalar (draw g2 j2) ->
  fst (compute_keys m data g1) = fst (compute_keys m data g2).
Proof. exact keys_space. Qed.
Print Assumptions C66_keys_are_56_bits.
Example ex_other : first_accepted (skipn 32 other_tape) 0 /\ used_scalar (draw (skipn 32 other_tape) 0) = used_scalar (draw (skipn 32 one_tape) 0) /\
  draw (skipn 32 one_tape) 0 = 1 /\ 2 ^ 254 < draw (skipn 32 other_tape) 0.
Proof. destruct other_accepted as (A & _ & B). split; [exact A|]. split; [exact B|]. split; vm_compute; reflexivity. Qed.

(** ** C67: the other side reads exactly what the client says *)
Theorem C67_peer_hears : forall m s p g c l as_ c' t, client_new m s p g = (Ok tt, c) -> healthy (writer_new p) -> 2 + cost l < 2 ^ 64 -> calls m l c = (as_, c') ->
  stream t = w_out (c_writer c') ->
  exists ss it, reached m s g (Complete ss) /\ renders l it /\ hears m t ss it /\ app_data (map heard it) = written l.
Proof. exact peer_hears. Qed.
Print Assumptions C67_peer_hears.
Example ex_written : written [Write [x61]; Read 3; Close; Write [x62; x63]] = [x61; x62; x63] /\
  app_data (map heard [(ApplicationDataTy, [x61]); (AlertTy, [x02; x00]); (ApplicationDataTy, [x62; x63])]) = [x61; x62; x63].
Proof. split; reflexivity. Qed.
Example ex_heard : forall m, exists s g c as_ c' t, client_new m s [] g = (Ok tt, c) /\ calls m [Write [x61]; Close] c = (as_, c') /\ stream t = w_out (c_writer c').
Proof.
  intros m. destruct (short_run m) as (s & g & c & ss & _ & E & _). destruct (calls m [Write [x61]; Close] c) as [a c'] eqn:C.
  exists s, g, c, a, c', (source (w_out (c_writer c'))). split; [exact E|]. split; [exact C|apply source_stream].
Qed.
