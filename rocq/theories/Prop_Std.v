(** C75 to C77: the client as applications use it, through [read_exact], [read_to_end] and [from_tcp]. *)
From Verif Require Import Spec_Std P_Util P_Codec P_Client P_Client3 P_Client4 P_Client5 P_Eof P_Std.
Local Open Scope list_scope.
Local Open Scope Z_scope.

(** ** C75: [read_exact] *)
Theorem C75_read_exact : forall m n key c x c', r_dec (c_reader c) = Some (new_decryptor m key) -> read_exact m n c = (x, c') ->
  x = Panic \/ exists e, x = Ok e /\ exact_means m n e c' /\ gathered m c (stored e) c'.
Proof. exact exact_keyed. Qed.
Print Assumptions C75_read_exact.
(** the hypothesis holds for every connected client *)
Theorem C75_connected : forall m s p g c, client_new m s p g = (Ok tt, c) -> exists key, r_dec (c_reader c) = Some (new_decryptor m key).
Proof. exact connected_dec. Qed.
Print Assumptions C75_connected.
(** from a server whose data is followed by a cut or a close_notify: the data, or all there is *)
Theorem C75_served : forall m key iv rest n c k fs, serving m c key iv k fs rest -> clean (r_src (c_reader c)) -> k + zlen fs + 1 < 2 ^ 64 ->
  ending key iv (k + zlen fs) rest -> fst (read_exact m n c) = Ok (exact_of n (c_buf c ++ concat fs)).
Proof. exact exact_served. Qed.
Print Assumptions C75_served.
Example ex_exact_of : exact_of 2 [x61; x62; x63] = Filled [x61; x62] /\ exact_of 4 [x61; x62; x63] = UnexpectedEof [x61; x62; x63]. Proof. split; reflexivity. Qed.
Example ex_serving_ended : forall m, exists c key iv, serving m c key iv 1 [[x61; x62]; []; [x63]] [] /\ ending key iv 4 [].
Proof.
  intros m. destruct (serving_example m) as (c & key & iv & S). exists c, key, iv. split; [exact S|].
  apply End_cut with (more := wire ApplicationDataTy x03 x03 []) (t := ApplicationDataTy) (maj := x03) (min := x03) (f := []); [reflexivity|discriminate|discriminate].
Qed.
(** "unexpected end of file" does not mean that the data has ended: a record nobody made is enough, and the data comes with the next call *)
Theorem C75_eof_refuted : exists m s g ss c z f c1 c2, client_new m s [] g = (Ok tt, c) /\ reached m s g (Complete ss) /\
  stream (r_src (c_reader c)) = e_record ApplicationDataTy z ++ sealed_record (k_server (s_keys ss)) (iv_server (s_keys ss)) 1 ApplicationDataTy f /\
  (forall a p, z <> aead_seal (k_server (s_keys ss)) (rfc_nonce (iv_server (s_keys ss)) 1) a p) /\
  f <> [] /\ read_exact m (length f) c = (Ok (UnexpectedEof []), c1) /\ read_exact m (length f) c1 = (Ok (Filled f), c2).
Proof. exact (ex_intro _ Release (exact_refuted Release)). Qed.
Print Assumptions C75_eof_refuted.
Theorem C75_eof_always : forall m c key iv k t maj min z f rest, keyed m (c_reader c) key iv k -> no_pending (c_reader c) -> c_buf c = [] ->
  k + 1 < 2 ^ 64 -> legal_fragment f -> zlen z <= 16384 + 2048 ->
  (forall p, z <> aead_seal key (rfc_nonce iv k) (rfc_ad k t maj min (zlen z - 16)) p) ->
  stream (r_src (c_reader c)) = wire t maj min z ++ sealed_record key iv k ApplicationDataTy f ++ rest ->
  exists c1 c2, read_exact m (length f) c = (Ok (UnexpectedEof []), c1) /\ read_exact m (length f) c1 = (Ok (Filled f), c2).
Proof. exact exact_after_forgery. Qed.
Print Assumptions C75_eof_always.
(** and success does not mean that nothing was wrong *)
Theorem C75_masked : forall m c key iv k t maj min z f1 f2 rest, keyed m (c_reader c) key iv k -> no_pending (c_reader c) -> c_buf c = [] ->
  k + 2 < 2 ^ 64 -> legal_fragment f1 -> legal_fragment f2 -> zlen z <= 16384 + 2048 ->
  (forall p, z <> aead_seal key (rfc_nonce iv (k + 1)) (rfc_ad (k + 1) t maj min (zlen z - 16)) p) ->
  stream (r_src (c_reader c)) = sealed_record key iv k ApplicationDataTy f1 ++ wire t maj min z ++ sealed_record key iv (k + 1) ApplicationDataTy f2 ++ rest ->
  exists c', read_exact m (length (f1 ++ f2)) c = (Ok (Filled (f1 ++ f2)), c').
Proof. exact exact_over_forgery. Qed.
Print Assumptions C75_masked.
Example ex_not_sealed : forall key n a p, [x00] <> aead_seal key n a p.
Proof. intros key n a. apply P_App2.short_forged. repeat constructor. Qed.

(** ** C76: [read_to_end] *)
(** one outcome for each way of choosing buffers; success is the concatenation of what the reads gave *)
Theorem C76_read_to_end : forall m sz key c, r_dec (c_reader c) = Some (new_decryptor m key) ->
  exists x c', to_end m sz 0 [] c x c' /\ (forall y c2, to_end m sz 0 [] c y c2 -> y = x /\ c2 = c') /\
    (x = Panic \/ exists b, x = Ok b /\ gathered m c b c' /\ c_buf c' = [] /\ exists r k, read_application_data m r = (Err k, c_reader c')).
Proof. exact to_end_keyed. Qed.
Print Assumptions C76_read_to_end.
(** from a server whose data is followed by a cut or a close_notify: all of it, whatever buffers are chosen *)
Theorem C76_served : forall m key iv rest sz c k fs, serving m c key iv k fs rest -> clean (r_src (c_reader c)) -> k + zlen fs + 1 < 2 ^ 64 ->
  ending key iv (k + zlen fs) rest -> exists c', to_end m sz 0 [] c (Ok (c_buf c ++ concat fs)) c'.
Proof. exact to_end_served. Qed.
Print Assumptions C76_served.
(** success does not mean that the end was reached: a cut connection *)
Theorem C76_truncation_refuted : exists m s g ss c sent rest, client_new m s [] g = (Ok tt, c) /\ reached m s g (Complete ss) /\ clean s /\
  sent = sealed_stream (k_server (s_keys ss)) (iv_server (s_keys ss)) 1 ApplicationDataTy [[x61]; [x62]] /\
  sent = stream (r_src (c_reader c)) ++ rest /\ rest <> [] /\
  forall sz, exists c', to_end m sz 0 [] c (Ok [x61]) c'.
Proof. exact (ex_intro _ Release (to_end_truncated Release)). Qed.
Print Assumptions C76_truncation_refuted.
(** and a record nobody made, with the data still to come *)
Theorem C76_junk_refuted : exists m s g ss c z f, client_new m s [] g = (Ok tt, c) /\ reached m s g (Complete ss) /\
  stream (r_src (c_reader c)) = e_record ApplicationDataTy z ++ sealed_record (k_server (s_keys ss)) (iv_server (s_keys ss)) 1 ApplicationDataTy f /\
  (forall a p, z <> aead_seal (k_server (s_keys ss)) (rfc_nonce (iv_server (s_keys ss)) 1) a p) /\
  f <> [] /\ forall sz, exists c1 c2, to_end m sz 0 [] c (Ok []) c1 /\ read_exact m (length f) c1 = (Ok (Filled f), c2).
Proof. exact (ex_intro _ Release (to_end_refuted Release)). Qed.
Print Assumptions C76_junk_refuted.
Theorem C76_refuted_both_builds : forall m,
  (exists s g ss c sent rest, client_new m s [] g = (Ok tt, c) /\ reached m s g (Complete ss) /\ clean s /\
    sent = sealed_stream (k_server (s_keys ss)) (iv_server (s_keys ss)) 1 ApplicationDataTy [[x61]; [x62]] /\
    sent = stream (r_src (c_reader c)) ++ rest /\ rest <> [] /\ forall sz, exists c', to_end m sz 0 [] c (Ok [x61]) c') /\
  (exists s g ss c z f, client_new m s [] g = (Ok tt, c) /\ reached m s g (Complete ss) /\
    stream (r_src (c_reader c)) = e_record ApplicationDataTy z ++ sealed_record (k_server (s_keys ss)) (iv_server (s_keys ss)) 1 ApplicationDataTy f /\
    (forall a p, z <> aead_seal (k_server (s_keys ss)) (rfc_nonce (iv_server (s_keys ss)) 1) a p) /\
    f <> [] /\ forall sz, exists c1 c2, to_end m sz 0 [] c (Ok []) c1 /\ read_exact m (length f) c1 = (Ok (Filled f), c2)).
Proof. exact (fun m => conj (to_end_truncated m) (to_end_refuted m)). Qed.
Print Assumptions C76_refuted_both_builds.

(** ** C77: [from_tcp] and the example program *)
Theorem C77_from_tcp : forall m s p g, from_tcp m true s p g = client_new m s p g /\
  exists c, from_tcp m false s p g = (Err IoFailure, c) /\ w_out (c_writer c) = [] /\ r_src (c_reader c) = s /\ c_rng c = g.
Proof. exact (fun m s p g => conj (cloned m s p g) (not_cloned m s p g)). Qed.
Print Assumptions C77_from_tcp.
(** with a conforming server: the request and the close alert are all that is sent, and the beginning of the answer is shown *)
Theorem C77_example : forall m sv g j ss s p fs1 fs2 data rest, wf_server sv -> (32 <= length g)%nat -> first_accepted (skipn 32 g) j ->
  used_scalar (draw (skipn 32 g) j) <> 0 ->
  agreed sv (firstn 32 g) (nmul (Z.to_nat (used_scalar (draw (skipn 32 g) j))) Gpt) ss ->
  first_flight ss fs1 -> second_flight ss fs2 -> healthy (writer_new p) -> clean s ->
  Forall (fun f => zlen f <= 16384) data -> zlen fs2 + zlen data + 1 < 2 ^ 64 ->
  ending (k_server (s_keys ss)) (iv_server (s_keys ss)) (zlen fs2 + zlen data) rest ->
  stream s = served ss fs1 fs2 ++ sealed_stream (k_server (s_keys ss)) (iv_server (s_keys ss)) (zlen fs2) ApplicationDataTy data ++ rest ->
  exists c, example m true s p g = (Ok tt, Some (padded (Z.to_nat 4096) (concat data)), c) /\
    w_out (c_writer c) = stage_out (Complete ss) ++
      sealed_record (k_client (s_keys ss)) (iv_client (s_keys ss)) 1 ApplicationDataTy head_request ++
      sealed_record (k_client (s_keys ss)) (iv_client (s_keys ss)) 2 AlertTy [x02; x00].
Proof. exact example_honest. Qed.
Print Assumptions C77_example.
(** on any transport: nothing is shown before the handshake is complete, and then only what the server sealed, and zeros *)
Theorem C77_shown : forall m cl s p g x d c, example m cl s p g = (x, Some d, c) -> exists ss, reached m s g (Complete ss) /\
  forall peer, sealed_by (new_encryptor m (k_server (s_keys ss))) (iv_server (s_keys ss)) peer -> zlen peer < 2 ^ 64 ->
  forged (new_decryptor m (k_server (s_keys ss))) (iv_server (s_keys ss)) peer s \/
  exists D rest, app_bytes (map fst peer) = D ++ rest /\ d = padded (Z.to_nat 4096) D /\ (length D <= Z.to_nat 4096)%nat.
Proof. exact example_shows. Qed.
Print Assumptions C77_shown.
Theorem C77_silent : forall m cl s p g, fst (client_new m s p g) <> Ok tt \/ cl = false ->
  exists c, example m cl s p g = (Panic, None, c) \/ example m cl s p g = (Diverge, None, c).
Proof. exact example_silent. Qed.
Print Assumptions C77_silent.
Example ex_example_runs : forall m, exists s g c, example m true s [] g = (Ok tt, Some (padded (Z.to_nat 4096) [x61; x62; x63]), c).
Proof. exact example_runs. Qed.
Example ex_padded : padded 4 [x61; x62] = [x61; x62; x00; x00] /\ padded 1 [x61; x62] = [x61]. Proof. split; reflexivity. Qed.
