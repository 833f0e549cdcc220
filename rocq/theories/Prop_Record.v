(** Properties C08 (records and messages), C12, C14-C24: src/tls.rs. *)
From Verif Require Import Spec_Record P_RecordW P_RecordR P_Record P_Record2 P_Record3 P_RecordX P_RecordA.

(** ** C08: what a reader returns does not depend on how the transport splits the stream *)
Theorem C08_record_layer_splitting : forall m,
  split_independent (read_record m) /\ split_independent (read_message m) /\
  split_independent (read_application_data m) /\ split_independent (read_handshake m) /\
  split_independent (read_change_cipher_spec m).
Proof.
  exact (fun m => conj (split_read_record m) (conj (split_read_message m) (conj (split_read_application_data m)
           (conj (split_read_handshake m) (split_read_ccs m))))).
Qed.
Print Assumptions C08_record_layer_splitting.

Theorem C08_message_histories_splitting : forall m n r1 r2, same_reader r1 r2 ->
  fst (reads (read_message m) n r1) = fst (reads (read_message m) n r2).
Proof. exact (fun m n => split_reads (read_message m) n (split_read_message m)). Qed.
Print Assumptions C08_message_histories_splitting.

Example ex_same_reader :
  let a := wire HandshakeTy x03 x03 [x0e; x00] in let b := wire HandshakeTy x03 x03 [x00; x00] in
  same_reader (reader_new [RData (a ++ b)]) (reader_new [RData a; RData b]) /\
  fst (read_message Debug (reader_new [RData (a ++ b)])) = Ok (HandshakeMessage server_hello_done).
Proof.
  split; [|reflexivity]. split; [reflexivity|]. split; [reflexivity|]. split; [reflexivity|]. split; [reflexivity|].
  split; [|split]; [| |reflexivity]; repeat constructor; eexists _, _; reflexivity.
Qed.

(** ** C12 *)
Theorem C12_reassembly_in_the_clear : forall m maj min hs fs r rest,
  Forall wf_handshake hs -> Forall legal_fragment fs -> concat fs = concat (map e_handshake hs) ->
  r_dec r = None -> r_buf r = [] -> 0 <= r_count r -> r_count r + zlen fs < 2 ^ 64 ->
  stream (r_src r) = concat (map (wire HandshakeTy maj min) fs) ++ rest ->
  exists r', reads (read_message m) (length hs) r = (map Ok (map HandshakeMessage hs), r') /\
    r_buf r' = [] /\ stream (r_src r') = rest.
Proof. exact reassembly_clear. Qed.
Print Assumptions C12_reassembly_in_the_clear.

Theorem C12_reassembly_sealed : forall m e d iv hs fs ss r rest,
  opens e d -> 0 <= dc_mac_len d <= 2048 -> length iv = 12%nat ->
  Forall wf_handshake hs -> Forall legal_fragment fs -> concat fs = concat (map e_handshake hs) ->
  sealed_as e iv (r_count r) HandshakeTy fs ss ->
  r_dec r = Some d -> r_iv r = Some iv -> r_buf r = [] -> 0 <= r_count r -> r_count r + zlen fs < 2 ^ 64 ->
  stream (r_src r) = concat (map (e_record HandshakeTy) ss) ++ rest ->
  exists r', reads (read_message m) (length hs) r = (map Ok (map HandshakeMessage hs), r') /\
    r_buf r' = [] /\ stream (r_src r') = rest.
Proof. exact reassembly_sealed. Qed.
Print Assumptions C12_reassembly_sealed.

(** two messages cut into three records, with boundaries inside the messages *)
Example ex_reassembly :
  let fs := [[x0e; x00]; [x00; x00; x14; x00; x00]; [x0c] ++ zeros 12] in
  let hs := [server_hello_done; finished (zeros 12)] in
  Forall wf_handshake hs /\ Forall legal_fragment fs /\ concat fs = concat (map e_handshake hs) /\
  fst (reads (read_message Debug) 2 (reader_new [RData (concat (map (wire HandshakeTy x03 x03) fs))])) =
    [Ok (HandshakeMessage server_hello_done); Ok (HandshakeMessage (finished (zeros 12)))].
Proof.
  split; [repeat constructor|]. split; [repeat constructor; cbv; discriminate|]. split; [reflexivity|].
  vm_compute. reflexivity.
Qed.
Example ex_cipher : opens toy_enc toy_dec /\ 0 <= dc_mac_len toy_dec <= 2048.
Proof. split; [exact toy_opens|split; discriminate]. Qed.

(** ** C14 *)
Theorem C14_records_in_the_clear : forall m t data w,
  w_enc w = None -> 0 <= w_count w -> w_count w + zlen data < 2 ^ 64 ->
  exists x w' fs, write_data m t data w = (x, w') /\ concat fs = data /\ Forall legal_fragment fs /\
    emitted w x w' (concat (map (e_record t) fs)).
Proof. exact write_data_clear. Qed.
Print Assumptions C14_records_in_the_clear.

Theorem C14_records_sealed : forall m t data w e iv k,
  seals e k -> 0 <= k <= 2048 -> length iv = 12%nat ->
  w_enc w = Some e -> w_iv w = Some iv -> 0 <= w_count w -> w_count w + zlen data < 2 ^ 64 ->
  exists x w' fs ss, write_data m t data w = (x, w') /\ concat fs = data /\ Forall legal_fragment fs /\
    sealed_as e iv (w_count w) t fs ss /\ Forall (fun s => zlen s <= 16384 + k) ss /\
    emitted w x w' (concat (map (e_record t) ss)).
Proof. exact write_data_sealed. Qed.
Print Assumptions C14_records_sealed.

Example ex_write_data :
  write_data Debug AlertTy [x02; x28] (writer_new []) =
    (Ok tt, Writer [x15; x03; x03; x00; x02; x02; x28] [] None 1 None []) /\
  write_data Debug AlertTy [x02; x28] (writer_new [WOk; WOk; WFail 0]) =
    (Err IoFailure, Writer [x15; x03] [] None 0 None []).
Proof. split; reflexivity. Qed.

(** ** C15 *)
Theorem C15_end_to_end : forall m os, Forall wf_msg_op os -> forall w r, healthy w -> paired w r ->
  w_count w + payloads os < 2 ^ 64 -> (forall d, In (SendApp d) os -> w_enc w <> None) ->
  exists w' bs ms, run_ops m (map as_wop os) w = (repeat (Ok tt) (length os), w') /\
    w_out w' = w_out w ++ bs /\ delivers os ms /\
    forall r2 rest, paired w r2 -> stream (r_src r2) = bs ++ rest ->
      exists r', reads (read_message m) (length ms) r2 = (map Ok ms, r') /\
                 stream (r_src r') = rest /\ paired w' r'.
Proof. exact end_to_end. Qed.
Print Assumptions C15_end_to_end.

Example ex_paired :
  paired (Writer [] [] (Some toy_enc) 7 (Some (zeros 12)) []) (Reader [] (Some toy_dec) 7 [] (Some (zeros 12))) /\
  paired (writer_new []) (reader_new []) /\ wf_msg_op (SendHandshake (finished (zeros 12))).
Proof.
  split; [|split; [repeat split; discriminate|repeat split]].
  split; [reflexivity|]. split; [discriminate|]. split; [reflexivity|]. split; [reflexivity|].
  split; [exact toy_opens|]. split; [split; discriminate|]. exists (zeros 12). split; reflexivity.
Qed.

(** from a new connection: messages in the clear, keys installed on both sides, sealed messages *)
Theorem C15_whole_connection : forall m os1 os2 e d iv plan,
  Forall (fun x => x = WOk) plan -> Forall wf_msg_op os1 -> Forall wf_msg_op os2 ->
  payloads os1 < 2 ^ 64 -> payloads os2 < 2 ^ 64 -> (forall x, ~ In (SendApp x) os1) ->
  opens e d -> 0 <= dc_mac_len d <= 2048 -> length iv = 12%nat ->
  exists w' bs1 bs2 ms1 ms2,
    run_ops m (map as_wop os1 ++ OpSetEncryptor e :: OpSetIv iv :: map as_wop os2) (writer_new plan) =
      (repeat (Ok tt) (length os1 + (2 + length os2)), w') /\
    w_out w' = bs1 ++ bs2 /\ delivers os1 ms1 /\ delivers os2 ms2 /\
    forall s rest, stream s = bs1 ++ bs2 ++ rest ->
      exists r1 r2 r3, reads (read_message m) (length ms1) (reader_new s) = (map Ok ms1, r1) /\
        (do* _ := r_set_decryptor d in r_set_iv iv) r1 = (Ok tt, r2) /\
        reads (read_message m) (length ms2) r2 = (map Ok ms2, r3) /\ stream (r_src r3) = rest.
Proof. exact whole_connection. Qed.
Print Assumptions C15_whole_connection.

Example ex_whole_connection :
  w_out (snd (run_ops Debug [OpCcs; OpSetEncryptor toy_enc; OpSetIv (zeros 12); OpApp [x05]] (writer_new []))) =
    [x14; x03; x03; x00; x01; x01] ++ [x17; x03; x03; x00; x11; x05] ++ zeros 16 /\
  payloads [SendCcs] < 2 ^ 64 /\ payloads [SendApp [x05]] < 2 ^ 64.
Proof. split; [vm_compute; reflexivity|split; reflexivity]. Qed.

(** ** C16 *)
Theorem C16_sequence_numbers : forall m ops e iv w,
  healthy w -> w_enc w = Some e -> w_iv w = Some iv -> length iv = 12%nat ->
  w_count w = 0 -> w_log w = [] -> zlen (w_log (snd (run_ops m ops w))) <= 2 ^ 64 ->
  (forall k l, nth_error (w_log (snd (run_ops m ops w))) k = Some l ->
     log_nonce l = rfc_nonce iv (Z.of_nat k) /\
     exists t maj min, log_ad l = rfc_ad (Z.of_nat k) t maj min (zlen (log_plain l))) /\
  NoDup (map log_nonce (w_log (snd (run_ops m ops w)))).
Proof. exact ops_numbered. Qed.
Print Assumptions C16_sequence_numbers.

Example ex_numbered :
  let w := Writer [] [] (Some toy_enc) 0 (Some (zeros 12)) [] in
  healthy w /\ map log_nonce (w_log (snd (run_ops Debug [OpApp [x01]; OpAlert (Alert AL_warning AD_close_notify); OpApp [x02]] w)))
    = [zeros 12; zeros 11 ++ [x01]; zeros 11 ++ [x02]].
Proof. split; [constructor|vm_compute; reflexivity]. Qed.

(** wherever in a history the encryptor is installed, the k-th record it seals carries sequence number k *)
Theorem C16_any_history : forall m ops plan, Forall (fun e => e = WOk) plan ->
  forall log, log = w_log (snd (run_ops m ops (writer_new plan))) -> zlen log <= 2 ^ 64 ->
  forall k l, nth_error log k = Some l ->
    exists t maj min, log_ad l = rfc_ad (Z.of_nat k) t maj min (zlen (log_plain l)).
Proof. exact any_history_counts. Qed.
Print Assumptions C16_any_history.

(** and nonce (0^4 || k) xor IV, whatever was sent in the clear before *)
Theorem C16_after_installation : forall m pre post plan rs w1 e iv log, Forall (fun x => x = WOk) plan ->
  run_ops m pre (writer_new plan) = (rs, w1) -> ~ In Panic rs -> ~ In Diverge rs -> w_enc w1 = None ->
  length iv = 12%nat ->
  (w_iv w1 = None /\ log = w_log (snd (run_ops m (OpSetEncryptor e :: OpSetIv iv :: post) w1)) \/
   w_iv w1 = Some iv /\ log = w_log (snd (run_ops m (OpSetEncryptor e :: post) w1))) ->
  zlen log <= 2 ^ 64 ->
  (forall k l, nth_error log k = Some l ->
     log_nonce l = rfc_nonce iv (Z.of_nat k) /\
     exists t maj min, log_ad l = rfc_ad (Z.of_nat k) t maj min (zlen (log_plain l))) /\
  NoDup (map log_nonce log).
Proof. exact installed_numbered. Qed.
Print Assumptions C16_after_installation.

(** a key, once installed, cannot be replaced (which would start the numbers again): the attempt panics and changes nothing *)
Theorem C16_keys_set_once :
  (forall e w, w_set_encryptor e w = match w_enc w with
     | None => (Ok tt, Writer (w_out w) (w_plan w) (Some e) 0 (w_iv w) (w_log w)) | Some _ => (Panic, w) end) /\
  (forall iv w, w_set_iv iv w = match w_iv w with
     | None => (Ok tt, Writer (w_out w) (w_plan w) (w_enc w) (w_count w) (Some iv) (w_log w)) | Some _ => (Panic, w) end) /\
  (forall d r, r_set_decryptor d r = match r_dec r with
     | None => (Ok tt, Reader (r_src r) (Some d) 0 (r_buf r) (r_iv r)) | Some _ => (Panic, r) end) /\
  (forall iv r, r_set_iv iv r = match r_iv r with
     | None => (Ok tt, Reader (r_src r) (r_dec r) (r_count r) (r_buf r) (Some iv)) | Some _ => (Panic, r) end).
Proof. exact keys_once. Qed.
Print Assumptions C16_keys_set_once.


Example ex_after_installation :
  let pre := [OpCcs; OpData AlertTy [x01; x00]] in
  let w1 := snd (run_ops Debug pre (writer_new [])) in
  fst (run_ops Debug pre (writer_new [])) = [Ok tt; Ok tt] /\ w_enc w1 = None /\ w_iv w1 = None /\ w_count w1 = 2 /\
  map log_ad (w_log (snd (run_ops Debug [OpSetEncryptor toy_enc; OpSetIv (zeros 12); OpApp [x05]; OpApp [x06]] w1))) =
    [zeros 8 ++ [x17; x03; x03; x00; x01]; zeros 7 ++ [x01] ++ [x17; x03; x03; x00; x01]].
Proof. vm_compute. repeat split. Qed.

(** ** C17: false *)
Theorem C17_nonces_never_repeat_refuted : exists m e k iv w ops l1 l2,
  seals e k /\ length iv = 12%nat /\ w_enc w = Some e /\ w_iv w = Some iv /\ w_count w = 0 /\ w_log w = [] /\
  w_log (snd (run_ops m ops w)) = [l1; l2] /\ log_nonce l1 = log_nonce l2 /\ log_plain l1 <> log_plain l2.
Proof. exact reuse_witness. Qed.
Print Assumptions C17_nonces_never_repeat_refuted.

(** for every cipher and any two payloads, a failing write followed by another one puts both ciphertexts
    (the first without its last byte) on the wire under one nonce *)
Theorem C17_reuse_for_every_cipher : forall m e k iv p1 p2,
  seals e k -> 1 <= k <= 2048 -> length iv = 12%nat -> legal_fragment p1 -> legal_fragment p2 -> p1 <> p2 ->
  exists w ops w' c1 c2 l1 l2,
    w_enc w = Some e /\ w_iv w = Some iv /\ w_count w = 0 /\ w_log w = [] /\ w_out w = [] /\
    ops = [OpApp p1; OpApp p2] /\ run_ops m ops w = ([Err IoFailure; Ok tt], w') /\
    w_log w' = [l1; l2] /\ log_nonce l1 = log_nonce l2 /\ log_plain l1 = p1 /\ log_plain l2 = p2 /\
    log_sealed l1 = c1 /\ log_sealed l2 = c2 /\
    w_out w' = removelast (e_record ApplicationDataTy c1) ++ e_record ApplicationDataTy c2.
Proof. exact nonce_reuse. Qed.
Print Assumptions C17_reuse_for_every_cipher.

Example ex_reuse_meets : seals toy_enc 16 /\ legal_fragment [x01] /\ legal_fragment [x02] /\ [x01] <> [x02].
Proof. split; [exact toy_seals|]. repeat split; discriminate. Qed.

(** ** C18 *)
Theorem C18_no_clear_application_data : forall m d w,
  w_enc w = None -> write_application_data m d w = (Panic, w).
Proof. exact app_data_needs_encryptor. Qed.
Print Assumptions C18_no_clear_application_data.

Theorem C18_everything_sealed : forall m ops e w, w_enc w = Some e ->
  exists log pieces, let w' := snd (run_ops m ops w) in
    w_enc w' = Some e /\ w_log w' = w_log w ++ log /\ Forall (logged_by e) log /\
    w_out w' = w_out w ++ concat pieces /\ Forall (sealed_piece log) pieces.
Proof. exact ops_sealed. Qed.
Print Assumptions C18_everything_sealed.

Theorem C18_encryptor_once : forall e e' w, w_enc w = Some e -> w_set_encryptor e' w = (Panic, w).
Proof. exact encryptor_once. Qed.
Print Assumptions C18_encryptor_once.

Example ex_sealed : let w := Writer [] [WOk; WOk; WOk; WOk; WFail 3] (Some toy_enc) 0 (Some (zeros 12)) [] in
  w_out (snd (run_ops Debug [OpApp [x05]; OpCcs] w)) =
    [x17; x03; x03; x00; x11; x05; x00; x00] ++ [x14; x03; x03; x00; x11; x01] ++ zeros 16.
Proof. vm_compute. reflexivity. Qed.

(** ** C19: true for announced lengths and in the clear, false for sealed records *)
Theorem C19_announced_length : forall m r t maj min n rest,
  stream (r_src r) = [z2b (rfc_content_type t); maj; min] ++ be 2 n ++ rest -> 16384 + 2048 < n < 65536 ->
  exists r', read_record m r = (Err RecordOverflow, r') /\ stream (r_src r') = rest /\
    r_buf r' = r_buf r /\ r_count r' = r_count r.
Proof. exact header_overflow. Qed.
Print Assumptions C19_announced_length.

Theorem C19_long_fragment_in_the_clear : forall m r t maj min frag rest, r_dec r = None ->
  stream (r_src r) = wire t maj min frag ++ rest -> 16384 < zlen frag <= 16384 + 2048 ->
  exists r', read_record m r = (Err RecordOverflow, r') /\ r_buf r' = r_buf r /\ r_count r' = r_count r.
Proof. exact clear_overflow. Qed.
Print Assumptions C19_long_fragment_in_the_clear.

Theorem C19_no_panic_in_the_clear : forall m r, r_dec r = None -> 0 <= r_count r -> r_count r + 1 < 2 ^ 64 ->
  match fst (read_record m r) with Ok _ | Err _ => True | Panic | Diverge => False end.
Proof. exact clear_no_panic. Qed.
Print Assumptions C19_no_panic_in_the_clear.

Theorem C19_sealed_long_record_refuted : exists m e d iv p c r,
  opens e d /\ dc_mac_len d = 16 /\ length iv = 12%nat /\ zlen p = 16385 /\ zlen c <= 16384 + 2048 /\
  e (rfc_nonce iv 0) p (rfc_ad 0 ApplicationDataTy x03 x03 (zlen p)) = Ok c /\
  r = Reader [RData (e_record ApplicationDataTy c)] (Some d) 0 [] (Some iv) /\
  fst (read_record m r) = Panic.
Proof. exact overflow_witness. Qed.
Print Assumptions C19_sealed_long_record_refuted.

(** every authentic record above 2^14 bytes panics, for every cipher, state and mode *)
Theorem C19_sealed_long_record_always_panics : forall m r d iv t maj min p c rest,
  r_dec r = Some d -> r_iv r = Some iv -> length iv = 12%nat -> 0 <= r_count r < 2 ^ 64 ->
  stream (r_src r) = wire t maj min c ++ rest -> zlen c <= 16384 + 2048 -> zlen c = zlen p + dc_mac_len d ->
  dc_decrypt d (rfc_nonce iv (r_count r)) c (rfc_ad (r_count r) t maj min (zlen p)) = Ok p ->
  16384 < zlen p ->
  fst (read_record m r) = Panic.
Proof. exact sealed_overflow. Qed.
Print Assumptions C19_sealed_long_record_always_panics.

Example ex_overflow : fst (read_record Debug (reader_new [RData [x17; x03; x03; x48; x01; x00]])) = Err RecordOverflow /\
  16384 + 2048 < 256 * 72 + 1.
Proof. split; reflexivity. Qed.

(** ** C20 *)
Theorem C20_unknown_type : forall m r b rest, stream (r_src r) = b :: rest -> ~ In (b2z b) [20; 21; 22; 23] ->
  fst (read_record m r) = Err UnexpectedMessage /\
  (no_pending r -> fst (read_message m r) = Err UnexpectedMessage).
Proof. exact unknown_type. Qed.
Print Assumptions C20_unknown_type.

Example ex_unknown : stream [RData [x18]] = [x18] /\ ~ In (b2z x18) [20; 21; 22; 23] /\ no_pending (reader_new [RData [x18]]).
Proof. split; [reflexivity|]. split; [cbn; lia|reflexivity]. Qed.

(** ** C21 *)
Theorem C21_change_cipher_spec : forall m r rec r1, no_pending r -> read_record m r = (Ok rec, r1) ->
  rc_type rec = ChangeCipherSpecTy ->
  (rc_fragment rec = [x01] /\ read_message m r = (Ok ChangeCipherSpecMessage, r1)) \/
  (rc_fragment rec <> [x01] /\ read_message m r = (Err UnexpectedMessage, r1)).
Proof. exact ccs_validated. Qed.
Print Assumptions C21_change_cipher_spec.

Theorem C21_alert : forall m r rec r1, no_pending r -> read_record m r = (Ok rec, r1) ->
  rc_type rec = AlertTy ->
  (exists a, known_alert (rc_fragment rec) a /\ read_message m r = (Ok (AlertMessage a), r1)) \/
  ((forall a, ~ known_alert (rc_fragment rec) a) /\ read_message m r = (Err UnexpectedMessage, r1)).
Proof. exact alert_validated. Qed.
Print Assumptions C21_alert.

Example ex_alert :
  fst (read_message Debug (reader_new [RData (wire AlertTy x03 x03 [x02; x28])])) = Ok (AlertMessage (Alert AL_fatal AD_handshake_failure)) /\
  fst (read_message Debug (reader_new [RData (wire AlertTy x03 x03 [x02; x01])])) = Err UnexpectedMessage /\
  fst (read_message Debug (reader_new [RData (wire ChangeCipherSpecTy x03 x03 [x01; x01])])) = Err UnexpectedMessage.
Proof. split; [reflexivity|]. split; reflexivity. Qed.

(** ** C22: false *)
Theorem C22_wrong_version_refuted : exists m r rec,
  r = reader_new [RData (wire HandshakeTy x02 x00 [x0e; x00; x00; x00])] /\
  fst (read_record m r) = Ok rec /\ (rc_major rec, rc_minor rec) <> (x03, x03) /\
  fst (read_message m r) = Ok (HandshakeMessage server_hello_done).
Proof. exact version_witness. Qed.
Print Assumptions C22_wrong_version_refuted.

Theorem C22_every_version_accepted : forall m r t maj min f rest,
  r_dec r = None -> 0 <= r_count r -> r_count r + 1 < 2 ^ 64 -> zlen f <= 16384 ->
  stream (r_src r) = wire t maj min f ++ rest ->
  exists r', read_record m r = (Ok (Rec t maj min f), r').
Proof. exact any_version. Qed.
Print Assumptions C22_every_version_accepted.

(** ** C29, at the record layer: what becomes of each message when application data is asked for *)
Theorem C29_record_layer : forall m r, r_dec r <> None ->
  match read_message m r with
  | (Ok (ApplicationDataMessage d), r') => read_application_data m r = (Ok d, r')
  | (Ok (AlertMessage a), r') => (al_desc a = AD_close_notify -> read_application_data m r = (Ok [], r')) /\
                                 (al_desc a <> AD_close_notify -> read_application_data m r = (Panic, r'))
  | (Ok _, r') => read_application_data m r = (Panic, r')
  | (Err k, r') => read_application_data m r = (Err k, r')
  | (Panic, r') => read_application_data m r = (Panic, r')
  | (Diverge, r') => read_application_data m r = (Diverge, r')
  end.
Proof. exact app_outcomes. Qed.
Print Assumptions C29_record_layer.
Theorem C29_before_keys : forall m r, r_dec r = None -> read_application_data m r = (Panic, r).
Proof. exact app_before_keys. Qed.
Print Assumptions C29_before_keys.

(** ** C23 *)
Theorem C23_delivered_records : forall m e d iv peer n r,
  opens e d -> length iv = 12%nat -> sealed_by e iv peer -> zlen peer < 2 ^ 64 ->
  r_dec r = Some d -> r_iv r = Some iv -> r_count r = 0 ->
  forged d iv peer (r_src r) \/ exists rest, map fst peer = oks (fst (reads (read_record m) n r)) ++ rest.
Proof. exact records_genuine. Qed.
Print Assumptions C23_delivered_records.

Theorem C23_delivered_application_data : forall m e d iv peer n r,
  opens e d -> length iv = 12%nat -> sealed_by e iv peer -> zlen peer < 2 ^ 64 ->
  r_dec r = Some d -> r_iv r = Some iv -> r_count r = 0 ->
  forged d iv peer (r_src r) \/
  exists rest, app_bytes (map fst peer) = concat (oks (fst (reads (read_application_data m) n r))) ++ rest.
Proof. exact app_data_genuine. Qed.
Print Assumptions C23_delivered_application_data.

(** every history of the writer is such a peer *)
Theorem C23_writer_histories : forall m ops e iv w,
  healthy w -> w_enc w = Some e -> w_iv w = Some iv -> length iv = 12%nat -> w_count w = 0 -> w_log w = [] ->
  let log := w_log (snd (run_ops m ops w)) in
  zlen log <= 2 ^ 64 ->
  exists peer, sealed_by e iv peer /\ map snd peer = map log_sealed log /\
    map (fun q => rc_fragment (fst q)) peer = map log_plain log.
Proof. exact history_sealed. Qed.
Print Assumptions C23_writer_histories.

(** a genuine stream, and a stream on which the decryptor accepts something never sealed (the toy cipher
    ignores the nonce, so a replay is a forgery) *)
Example ex_peer : let peer := [(Rec ApplicationDataTy x03 x03 [x01; x02], [x01; x02] ++ zeros 16)] in
  sealed_by toy_enc (zeros 12) peer /\
  oks (fst (reads (read_application_data Debug) 2
    (Reader [RData (e_record ApplicationDataTy ([x01; x02] ++ zeros 16))] (Some toy_dec) 0 [] (Some (zeros 12))))) = [[x01; x02]].
Proof.
  split; [|vm_compute; reflexivity]. intros [|[|k]] rec c H; try discriminate H. inversion H; subst. split; [discriminate|reflexivity].
Qed.

(** ** C24: false; what is true is that an empty buffer at the switch suffices *)
Theorem C24_finished_from_sealed_records_refuted : exists m e d iv clear sealed v,
  opens e d /\ length iv = 12%nat /\
  (exists c, e (rfc_nonce iv 0) [x00] (rfc_ad 0 HandshakeTy x03 x03 1) = Ok c /\ sealed = e_record HandshakeTy c) /\
  fst ((do* _ := read_change_cipher_spec m in do* _ := r_set_decryptor d in read_handshake m)
         (Reader [RData (clear ++ e_record ChangeCipherSpecTy [x01] ++ sealed)] None 1 [] (Some iv))) = Ok (finished v).
Proof. exact straddle_witness. Qed.
Print Assumptions C24_finished_from_sealed_records_refuted.

(** for every cipher: all of Finished but its last byte may arrive in the clear *)
Theorem C24_straddling_for_every_cipher : forall m e d iv v c,
  opens e d -> 0 <= dc_mac_len d <= 2048 -> length iv = 12%nat -> length v = 11%nat ->
  forall z, e (rfc_nonce iv 0) [z] (rfc_ad 0 HandshakeTy x03 x03 1) = Ok c ->
  fst ((do* _ := read_change_cipher_spec m in do* _ := r_set_decryptor d in read_handshake m)
         (Reader [RData (e_record HandshakeTy ([x14] ++ be 3 12 ++ v) ++ e_record ChangeCipherSpecTy [x01] ++ e_record HandshakeTy c)]
                 None 1 [] (Some iv))) = Ok (finished (v ++ [z])).
Proof. exact straddle_generic. Qed.
Print Assumptions C24_straddling_for_every_cipher.

(** missing for the full property: the reader does not check that its buffer is empty at the switch *)
Theorem C24_empty_buffer_suffices_partial : forall m d iv r h r',
  r_dec r = Some d -> r_iv r = Some iv -> length iv = 12%nat ->
  0 <= r_count r -> r_count r + zlen (all_bytes (r_src r)) < 2 ^ 64 ->
  r_buf r = [] -> read_handshake m r = (Ok h, r') ->
  exists recs body, opened d iv (r_count r) (all_bytes (r_src r)) recs /\
    Forall (fun rec => rc_type rec = HandshakeTy) recs /\
    concat (map rc_fragment recs) = ([z2b (hs_type h)] ++ sp_vec 3 body) ++ r_buf r' /\
    hs_read_ty (hs_type h) body = Ok (h, []).
Proof. exact finished_from_sealed. Qed.
Print Assumptions C24_empty_buffer_suffices_partial.

Example ex_sealed_finished :
  fst (read_handshake Debug (Reader [RData (e_record HandshakeTy (([x14] ++ be 3 12 ++ zeros 12) ++ zeros 16))] (Some toy_dec) 0 [] (Some (zeros 12))))
    = Ok (finished (zeros 12)).
Proof. vm_compute. reflexivity. Qed.
