(** The codec properties in the form stated in [Prop_Codec.v]. *)
From Verif Require Import Spec_Wire P_Codec.
From Coq Require Import ZifyBool ZifyNat.
Ltac Zify.zify_post_hook ::= Z.div_mod_to_equations.

Lemma rt_codec {A} (I : item A) wf enc : codec I wf enc -> roundtrips I wf.
Proof. intros C v rest W. exists (enc v). split; [apply C; exact W | apply C; exact W]. Qed.
Lemma rt_last {A} (I : item A) wf enc : codec_last I wf enc -> roundtrips_last I wf.
Proof. intros C v W. exists (enc v). split; [apply C; exact W | apply C; exact W]. Qed.
Lemma wa_codec {A} (I : item A) wf enc : codec I wf enc -> written_as I wf enc.
Proof. intros C v W. apply C; exact W. Qed.
Lemma se_sized {A} (I : item A) inv : sized I inv -> size_exact I inv.
Proof. intros S v w W H. symmetry. exact (S v w W H). Qed.
Lemma tp_parser {A} (I : item A) pwf : parser I pwf -> total_parser I.
Proof.
  intros P bs. pose proof (pa_total _ _ P bs) as V. destruct (tls_read I bs) as [[a rest]| | |] eqn:E; auto.
  apply (pa_canon _ _ P) in E as (w & -> & _). eauto.
Qed.

Lemma items_roundtrip :
  roundtrips i_alert anything /\ roundtrips i_sig_hash anything /\
  roundtrips i_sig_hash_vec (fun l => in_range 2 (2 * zlen l) 65534) /\
  roundtrips i_digitally_signed wf_digitally_signed /\ roundtrips i_cipher_suite wf_suite /\
  roundtrips i_version anything /\ roundtrips i_extension wf_ext /\
  roundtrips i_extension_vec (fun l => wf_exts (Some l)) /\
  roundtrips i_certificate_list wf_cert_list /\ roundtrips i_cert_request wf_cert_request /\
  roundtrips i_ske wf_ske /\ roundtrips i_ec_data (fun l => in_range 1 (zlen l) 255).
Proof.
  repeat split; eapply rt_codec;
  [ exact codec_alert | exact codec_sig_hash | exact codec_sig_hash_vec | exact codec_digitally_signed
  | exact codec_suite | exact codec_version | exact codec_ext | exact codec_ext_vec | exact codec_cert_list
  | exact codec_cert_request | exact codec_ske | exact codec_ec_data ].
Qed.

Lemma hellos_roundtrip :
  roundtrips_last i_client_hello wf_client_hello /\ roundtrips_last i_server_hello wf_server_hello.
Proof. split; eapply rt_last; [exact codec_client_hello | exact codec_server_hello]. Qed.

Lemma handshake_roundtrip h rest : wf_handshake h ->
  exists w, tls_write i_handshake h = Ok w /\ tls_read i_handshake w = Ok (h, []) /\
            get_message (w ++ rest) = (Ok (Some h), rest).
Proof.
  intros W. exists (e_handshake h).
  split; [exact (hs_write_enc h W)|]. split; [exact (hs_read_enc h W)|exact (get_message_enc h rest W)].
Qed.

Lemma items_sized :
  size_exact i_alert anything /\ size_exact i_sig_hash anything /\ size_exact i_sig_hash_vec anything /\
  size_exact i_digitally_signed anything /\ size_exact i_cipher_suite anything /\
  size_exact i_version anything /\ size_exact i_extension anything /\ size_exact i_extensions anything /\
  size_exact i_client_hello (fun h => length (ch_random h) = 32%nat) /\
  size_exact i_server_hello (fun h => length (sh_random h) = 32%nat) /\
  size_exact i_certificate_list anything /\ size_exact i_cert_request anything /\ size_exact i_ske anything.
Proof.
  repeat split; apply se_sized;
  [ exact sized_alert | exact sized_sig_hash | exact sized_sig_hash_vec | exact sized_digitally_signed
  | exact sized_suite | exact sized_version | exact sized_ext | exact sized_exts | exact sized_client_hello
  | exact sized_server_hello | exact sized_cert_list | exact sized_cert_request | exact sized_ske ].
Qed.

Lemma handshake_sized h w : arrays_ok h -> tls_write i_handshake h = Ok w ->
  tls_size i_handshake h = zlen w /\
  exists body, w = [z2b (hs_type h)] ++ be 3 (zlen body) ++ body.
Proof. intros A H. destruct (hs_sized h w A H) as [E X]. split; [symmetry; exact E|exact X]. Qed.

Lemma handshake_prefix_true h w : arrays_ok h -> tls_write i_handshake h = Ok w -> zlen w < 4 + 2 ^ 24 ->
  exists body, w = [z2b (hs_type h)] ++ sp_vec 3 body /\ be_val (be 3 (zlen body)) = zlen body.
Proof.
  intros A H L. destruct (hs_sized h w A H) as [_ (body & ->)]. exists body. split; [reflexivity|].
  rewrite be_val_be. apply Z.mod_small. rewrite !zlen_app, zlen_be in L. change (zlen [z2b (hs_type h)]) with 1 in L.
  pose proof (zlen_nonneg body). change (256 ^ Z.of_nat 3) with (2 ^ 24). lia.
Qed.

Lemma zlen_zeros n : zlen (zeros n) = Z.of_nat n.
Proof. unfold zlen, zeros. rewrite repeat_length. reflexivity. Qed.

Lemma big_message_prefix_wrong :
  exists h w, arrays_ok h /\ tls_write i_handshake h = Ok w /\
              be_val (firstn 3 (skipn 1 w)) <> zlen w - 4.
Proof.
  exists (server_key_exchange (zeros (Z.to_nat (2 ^ 24)))).
  exists (be 1 12 ++ be 3 (zlen (zeros (Z.to_nat (2 ^ 24)))) ++ zeros (Z.to_nat (2 ^ 24))).
  split; [exact I|]. split; [reflexivity|].
  generalize (zlen_zeros (Z.to_nat (2 ^ 24))). rewrite Z2Nat.id by lia.
  generalize (zeros (Z.to_nat (2 ^ 24))). intros z Hz. rewrite !zlen_app, !zlen_be, Hz.
  change (firstn 3 (skipn 1 (be 1 12 ++ be 3 (2 ^ 24) ++ z))) with (be 3 (2 ^ 24)).
  rewrite be_val_be. discriminate.
Qed.

Lemma vec_new_iff {A} (I : item A) mn mx l :
  (in_range mn (data_size I l) mx -> vec_new I mn mx l = Ok l) /\
  (~ in_range mn (data_size I l) mx -> vec_new I mn mx l = Err DecodeError).
Proof.
  unfold vec_new, in_range. destruct (Z.ltb_spec (data_size I l) mn); [|destruct (Z.ltb_spec mx (data_size I l))];
    split; intros; auto; lia.
Qed.

Lemma big_extension_prefix_wrong :
  exists l e w, new_elliptic_curve_list l = Ok e /\ tls_write i_extension e = Ok w /\
                be_val (firstn 2 (skipn 2 w)) <> zlen w - 4.
Proof.
  set (l := repeat secp256r1 (Z.to_nat 32767)).
  assert (L : zlen l = 32767) by (unfold zlen, l; rewrite repeat_length; lia).
  assert (D : data_size i_named_curve l = 65534).
  { rewrite (data_size_fixed i_named_curve 2 l (fun _ => eq_refl)), L. reflexivity. }
  assert (C : zlen (concat (map e_curve l)) = 65534).
  { rewrite (zlen_concat_fixed e_curve 2 l zlen_curve), L. reflexivity. }
  assert (W : in_range 1 (2 * zlen l) 65535) by (unfold in_range; lia).
  exists l, (elliptic_curves l), (be 2 10 ++ be 2 65536 ++ sp_vec 2 (concat (map e_curve l))).
  split. { unfold new_elliptic_curve_list.
    rewrite (proj1 (vec_new_iff i_named_curve 1 (2 ^ 16 - 1) l)) by (rewrite D; unfold in_range; lia). reflexivity. }
  assert (S : zlen (sp_vec 2 (concat (map e_curve l))) = 65536).
  { unfold sp_vec. rewrite zlen_app, zlen_be, C. reflexivity. }
  split.
  - cbn [tls_write i_extension ext_write]. unfold ext_write_body.
    rewrite (co_write _ _ _ codec_curve_list l W), (co_size _ _ _ codec_curve_list l W), S. reflexivity.
  - revert S. generalize (sp_vec 2 (concat (map e_curve l))). clear. intros s S.
    rewrite !zlen_app, !zlen_be, S.
    change (firstn 2 (skipn 2 (be 2 10 ++ be 2 65536 ++ s))) with (be 2 65536).
    rewrite be_val_be. discriminate.
Qed.

Lemma items_written :
  written_as i_alert anything e_alert /\ written_as i_sig_hash anything e_sig_hash /\
  written_as i_digitally_signed wf_digitally_signed e_digitally_signed /\
  written_as i_extension wf_ext e_ext /\ written_as i_ske wf_ske e_ske /\
  written_as i_ec_data (fun l => in_range 1 (zlen l) 255) (sp_vec 1).
Proof.
  repeat split; eapply wa_codec;
  [ exact codec_alert | exact codec_sig_hash | exact codec_digitally_signed | exact codec_ext
  | exact codec_ske | exact codec_ec_data ].
Qed.

Lemma handshake_written : written_as i_handshake wf_handshake e_handshake.
Proof. exact hs_write_enc. Qed.

(** re-serialisation *)
Lemma accepted_reserialise buf h rest :
  get_message buf = (Ok (Some h), rest) ->
  (forall b, h <> client_hello_msg b) -> (forall b, h <> server_hello_msg b) ->
  exists w, tls_write i_handshake h = Ok w /\ buf = w ++ rest.
Proof.
  intros H NC NS. apply get_message_inv in H as (body & L & -> & HT).
  apply hs_read_ty_inv in HT as [_ H]. exists (e_handshake h).
  assert (X : wf_hs_body h /\ body = e_hs_body h).
  { destruct h; try exact H; [exfalso; eapply NC; reflexivity | exfalso; eapply NS; reflexivity]. }
  destruct X as [W ->]. split; [apply hs_write_enc; split; assumption|reflexivity].
Qed.

Lemma exact_server_hello buf b rest :
  get_message buf = (Ok (Some (server_hello_msg b)), rest) -> sh_suite b <> UnknownCipherSuite ->
  exists w ignored,
    tls_write i_handshake (server_hello_msg b) = Ok w /\
    buf = frame x02 (e_server_hello b ++ ignored) ++ rest /\
    w = frame x02 (e_server_hello b) /\ (sh_exts b = None -> ignored = []) /\
    (ignored = [] -> buf = w ++ rest).
Proof.
  intros H S. apply get_message_inv in H as (body & L & -> & HT).
  apply hs_read_ty_inv in HT as [_ [W H]]. destruct (H S) as (junk & -> & J).
  exists (e_handshake (server_hello_msg b)), junk.
  assert (LB : zlen (e_server_hello b) < 2 ^ 24).
  { rewrite zlen_app in L. pose proof (zlen_nonneg junk). lia. }
  split; [apply hs_write_enc; split; [split; assumption|exact LB]|]. split; [reflexivity|].
  split; [reflexivity|]. split; [exact J|]. intros ->. rewrite app_nil_r. reflexivity.
Qed.

(** ServerHello with an empty extension block followed by one stray byte *)
Definition junk_hello : bytes :=
  frame x02 ([x03; x03] ++ zeros 32 ++ [x00] ++ [xcc; xa8] ++ [x00] ++ [x00; x00] ++ [xff]).
Definition junk_hello_value : server_hello :=
  ServerHello (Version x03 x03) (zeros 32) [] TLS_ECDHE_RSA_WITH_CHACHA20_POLY1305_SHA256 CM_null (Some []).

Lemma junk_not_reserialised :
  exists buf h w, get_message buf = (Ok (Some h), []) /\ tls_write i_handshake h = Ok w /\ buf <> w.
Proof.
  exists junk_hello, (server_hello_msg junk_hello_value), (e_handshake (server_hello_msg junk_hello_value)).
  split; [reflexivity|]. split; [reflexivity|]. discriminate.
Qed.

(** bounds *)
Lemma total_data_size {A} (I : item A) sz l : (forall a, tls_size I a = sz a) -> total sz l = data_size I l.
Proof.
  intros H. unfold total, data_size. induction l as [|a l IH]; [reflexivity|]. cbn [map fold_right].
  rewrite IH, H. reflexivity.
Qed.
Lemma bounded_vec {A} (I : item A) mn mx sz : (forall a, tls_size I a = sz a) -> bounded I mn mx sz.
Proof.
  intros H. split; [|split].
  - intros l. rewrite (total_data_size I sz l H). apply vec_new_iff.
  - intros l. rewrite (total_data_size I sz l H). apply vec_new_iff.
  - intros bs l rest E. cbn [tls_read i_vec] in E. apply rbind_ok in E as ([s r] & _ & E).
    apply rbind_ok in E as ([ls r'] & _ & E). destruct (negb (snd ls =? s)); [discriminate|].
    apply rbind_ok in E as (v & HV & E). injection E as -> _. rewrite (total_data_size I sz l H).
    unfold vec_new in HV. destruct (Z.ltb_spec (data_size I (fst ls)) mn); [discriminate|].
    destruct (Z.ltb_spec mx (data_size I (fst ls))); [discriminate|]. injection HV as <-.
    unfold in_range. lia.
Qed.
Lemma opaque_size w mn mx (l : bytes) : vec_width mx = w -> tls_size (i_vec i_u8 mn mx) l = Z.of_nat w + zlen l.
Proof. intros <-. cbn [tls_size i_vec]. rewrite data_size_u8. reflexivity. Qed.

Lemma vectors_bounded :
  bounded i_u8 0 32 (fun _ => 1) /\                                  (* SessionID *)
  bounded i_cipher_suite 2 65534 (fun _ => 2) /\                     (* CipherSuiteVec *)
  bounded i_compression 1 255 (fun _ => 1) /\                        (* CompressionMethodVec *)
  bounded i_u8 1 (2 ^ 24 - 1) (fun _ => 1) /\                        (* ASN1Cert *)
  bounded i_named_curve 1 65535 (fun _ => 2) /\                      (* NamedCurveList *)
  bounded i_point_format 1 255 (fun _ => 1) /\                       (* ECPointFormatList *)
  bounded i_sig_hash 2 65534 (fun _ => 2) /\                         (* SignatureAndHashAlgorithmVec *)
  bounded i_u8 0 65535 (fun _ => 1) /\                               (* SignatureVec *)
  bounded i_extension 0 65535 (fun e => zlen (e_ext e)) /\           (* ExtensionVec *)
  bounded i_asn1_cert 0 (2 ^ 24 - 1) (fun c => 3 + zlen c) /\        (* CertificateList *)
  bounded i_cert_type 1 255 (fun _ => 1) /\                          (* ClientCertTypeVec *)
  bounded i_dn 0 65535 (fun c => 2 + zlen c) /\                      (* DistinguishedNameVec *)
  bounded i_u8 1 255 (fun _ => 1).                                   (* EcData *)
Proof.
  repeat match goal with |- _ /\ _ => split end; apply bounded_vec; try reflexivity.
  - intros e. cbn [tls_size i_extension]. rewrite e_ext_data_size. unfold e_ext, sp_vec.
    rewrite !zlen_app, !zlen_be. lia.
  - intros c. exact (opaque_size 3 1 (2 ^ 24 - 1) c eq_refl).
  - intros c. exact (opaque_size 2 1 (2 ^ 16 - 1) c eq_refl).
Qed.

Lemma refuses {A} (I : item A) w mn mx wf enc :
  codec I wf enc -> (forall a, wf a -> 1 <= tls_size I a) -> vec_width mx = w ->
  refuses_outside I w mn mx wf enc.
Proof.
  intros C P <- l rest F L O. unfold sp_vec. rewrite <- app_assoc. cbn [tls_read i_vec].
  pose proof (zlen_nonneg (concat (map enc l))). rewrite rd_num_app by lia. cbn [rbind].
  rewrite (read_items_enc I wf enc l C P F _ 0); [|lia]. cbn [rbind fst snd]. rewrite Z.eqb_refl. cbn [negb].
  rewrite <- (data_size_enc _ _ _ _ C F) in O.
  rewrite (proj2 (vec_new_iff I mn mx l) O). reflexivity.
Qed.

Lemma vectors_refuse :
  refuses_outside i_u8 1 0 32 anything (fun b => [b]) /\
  refuses_outside i_cipher_suite 2 2 65534 wf_suite e_suite /\
  refuses_outside i_compression 1 1 255 anything e_comp /\
  refuses_outside i_u8 3 1 (2 ^ 24 - 1) anything (fun b => [b]) /\
  refuses_outside i_named_curve 2 1 65535 anything e_curve /\
  refuses_outside i_point_format 1 1 255 anything e_format /\
  refuses_outside i_sig_hash 2 2 65534 anything e_sig_hash /\
  refuses_outside i_cert_type 1 1 255 anything e_cert_type /\
  refuses_outside i_u8 1 1 255 anything (fun b => [b]).
Proof.
  repeat match goal with |- _ /\ _ => split end;
    (eapply refuses; [first [exact codec_u8|exact codec_suite|exact codec_comp|exact codec_curve|exact codec_format
      |exact codec_sig_hash|exact codec_cert_type]|intros; cbn; lia|reflexivity]).
Qed.

(** totality *)
Lemma last_total {A} (I : item A) :
  (forall bs, is_value (tls_read I bs)) -> (forall bs a rest, tls_read I bs = Ok (a, rest) -> rest = []) ->
  total_parser I.
Proof.
  intros V R bs. pose proof (V bs) as X. destruct (tls_read I bs) as [[a rest]| | |] eqn:E; auto.
  apply R in E. subst rest. exists bs. rewrite app_nil_r. reflexivity.
Qed.

Lemma items_total :
  total_parser i_alert /\ total_parser i_sig_hash /\ total_parser i_sig_hash_vec /\
  total_parser i_digitally_signed /\ total_parser i_cipher_suite /\ total_parser i_version /\
  total_parser i_extension /\ total_parser i_extension_vec /\ total_parser i_client_hello /\
  total_parser i_server_hello /\ total_parser i_certificate_list /\ total_parser i_cert_request /\
  total_parser i_ske /\ total_parser i_handshake.
Proof.
  repeat match goal with |- _ /\ _ => split end;
  [ eapply tp_parser; exact parser_alert | eapply tp_parser; exact parser_sig_hash
  | eapply tp_parser; exact parser_sig_hash_vec | eapply tp_parser; exact parser_digitally_signed
  | eapply tp_parser; exact parser_suite | eapply tp_parser; exact parser_version
  | eapply tp_parser; exact parser_ext | eapply tp_parser; exact parser_ext_vec | |
  | eapply tp_parser; exact parser_cert_list | eapply tp_parser; exact parser_cert_request
  | eapply tp_parser; exact parser_ske | ].
  - apply last_total; [exact client_hello_value|]. intros bs a rest H. apply client_hello_inv in H as [-> _]. reflexivity.
  - apply last_total; [exact server_hello_value|]. intros bs a rest H. apply server_hello_inv in H as [-> _]. reflexivity.
  - apply last_total; [exact hs_read_value|]. intros bs a rest H.
    apply hs_read_split in H as (? & ? & ? & _ & _ & _ & _ & ->). reflexivity.
Qed.

Lemma buffer_total buf :
  exists rest, snd (get_message buf) = rest /\ (exists w, buf = w ++ rest) /\
  match fst (get_message buf) with Ok _ | Err _ => True | Panic | Diverge => False end.
Proof.
  exists (snd (get_message buf)). split; [reflexivity|]. split; [|exact (get_message_value buf)].
  destruct (buffer_cases buf) as [H|[(ty & n & body & R & L & ->)|(ty & n & body & rest & R & L & ->)]].
  - rewrite get_message_short by exact H. exists []. reflexivity.
  - rewrite get_message_incomplete by assumption. exists []. reflexivity.
  - rewrite get_message_framed by assumption. eexists. reflexivity.
Qed.

(** enumerations *)
Lemma enum_exact {A} w (code : A -> Z) all tbl :
  enum_ok w code all -> tbl = map (fun a => (a, code a)) all -> decodes_exactly (i_enum w code all) w tbl.
Proof.
  intros O -> n rest R. cbn [tls_read i_enum]. rewrite rd_num_app by exact R. cbn [rbind]. split.
  - intros a H. apply in_map_iff in H as (a' & E & _). injection E as <- <-. destruct (O a') as [E _]. rewrite E. reflexivity.
  - intros N. destruct (from_code code all n) as [a|] eqn:E; [|reflexivity]. exfalso.
    apply find_some in E as [I1 E]. apply (N a). apply in_map_iff. exists a. split; [f_equal; lia|exact I1].
Qed.

Lemma enums_exact :
  decodes_exactly i_alert_level 1 sp_alert_level /\ decodes_exactly i_alert_desc 1 sp_alert_desc /\
  decodes_exactly i_hash_alg 1 sp_hash_alg /\ decodes_exactly i_sig_alg 1 sp_sig_alg /\
  decodes_exactly i_compression 1 sp_compression /\ decodes_exactly i_named_curve 2 sp_named_curve /\
  decodes_exactly i_point_format 1 sp_point_format /\ decodes_exactly i_cert_type 1 sp_cert_type.
Proof.
  repeat match goal with |- _ /\ _ => split end; apply enum_exact; try reflexivity;
  first [exact ok_alert_level|exact ok_alert_desc|exact ok_hash_alg|exact ok_sig_alg|exact ok_compression
        |exact ok_named_curve|exact ok_point_format|exact ok_cert_type].
Qed.

Lemma unknown_hs_type ty body :
  ~ In ty known_hs_types -> 0 <= ty < 256 -> zlen body < 2 ^ 24 ->
  tls_read i_handshake (frame (z2b ty) body) = Err UnexpectedMessage.
Proof.
  intros N R L. cbn [tls_read i_handshake]. unfold hs_read, frame, sp_vec.
  pose proof (zlen_nonneg body).
  destruct (be3_bytes (zlen body)) as (x & y & z & -> & _); [lia|]. cbn [app].
  rewrite rd_num_1_cons. cbn [rbind]. rewrite rd_num_1_cons. cbn [rbind]. rewrite rd_num_1_cons. cbn [rbind].
  rewrite rd_num_1_cons. cbn [rbind]. rewrite b2z_z2b, Z.mod_small by exact R.
  unfold hs_read_ty, known_hs_types in *. cbn [In] in N.
  repeat match goal with |- context [Z.eqb ty ?k] => destruct (Z.eqb_spec ty k); [lia|] end. reflexivity.
Qed.

(** framing *)
Lemma complete_removed ty body rest :
  zlen body < 2 ^ 24 ->
  exists r, get_message (frame ty body ++ rest) = (r, rest) /\
            ((exists h, r = Ok (Some h)) \/ (exists k, r = Err k)).
Proof.
  intros L. unfold frame, sp_vec. cbn [app]. pose proof (zlen_nonneg body).
  change (ty :: (be 3 (zlen body) ++ body) ++ rest) with ((ty :: be 3 (zlen body) ++ body) ++ rest).
  rewrite get_message_framed; [|lia|reflexivity]. eexists. split; [reflexivity|].
  pose proof (hs_read_value (ty :: be 3 (zlen body) ++ body)) as V.
  destruct (hs_read _) as [[h ?]| | |]; [eauto|eauto|contradiction|contradiction].
Qed.

Lemma incomplete_kept ty body p q :
  zlen body < 2 ^ 24 -> frame ty body = p ++ q -> q <> [] -> get_message p = (Ok None, p).
Proof.
  intros L E Q. unfold frame, sp_vec in E. pose proof (zlen_nonneg body) as NN.
  destruct (Z.ltb_spec (zlen p) 4) as [S|S]; [apply get_message_short; exact S|].
  assert (HQ : 1 <= zlen q) by (destruct q; [contradiction|rewrite zlen_cons; pose proof (zlen_nonneg q); lia]).
  destruct (be3_bytes (zlen body)) as (x & y & z & E3 & V); [lia|]. rewrite E3 in E. cbn [app] in E.
  destruct p as [|p0 [|p1 [|p2 [|p3 p]]]]; try (cbn in S; lia).
  cbn [app] in E. injection E as <- <- <- <- E.
  change (ty :: x :: y :: z :: p) with (ty :: [x; y; z] ++ p). rewrite <- E3.
  apply get_message_incomplete; [lia|]. rewrite E, zlen_app. lia.
Qed.

(** the two cases cover every buffer *)
Lemma buffer_split buf :
  (exists ty body p q, zlen body < 2 ^ 24 /\ frame ty body = p ++ q /\ q <> [] /\ buf = p) \/
  (exists ty body rest, zlen body < 2 ^ 24 /\ buf = frame ty body ++ rest).
Proof.
  destruct (buffer_cases buf) as [H|[(ty & n & body & R & L & ->)|(ty & n & body & rest & R & L & ->)]].
  - left. destruct buf as [|a [|b [|c [|d t]]]].
    + exists x00, [], [], (frame x00 []). repeat split; try discriminate; cbn; lia.
    + exists a, [], [a], [x00; x00; x00]. repeat split; try discriminate; cbn; lia.
    + set (body := zeros (Z.to_nat (b2z b * 65536))).
      pose proof (b2z_range b) as RB.
      assert (LB : zlen body = b2z b * 65536) by (unfold body; rewrite zlen_zeros; lia).
      exists a, body, [a; b], ([x00; x00] ++ body). split; [lia|]. split; [|split; [discriminate|reflexivity]].
      unfold frame, sp_vec. rewrite LB.
      replace (b2z b * 65536) with (b2z b * 65536 + 0 * 256 + 0) by lia.
      rewrite be3_join by lia. rewrite z2b_b2z. reflexivity.
    + pose proof (b2z_range b) as RB. pose proof (b2z_range c) as RC.
      set (body := zeros (Z.to_nat (b2z b * 65536 + b2z c * 256))).
      assert (LB : zlen body = b2z b * 65536 + b2z c * 256) by (unfold body; rewrite zlen_zeros; lia).
      exists a, body, [a; b; c], ([x00] ++ body). split; [lia|]. split; [|split; [discriminate|reflexivity]].
      unfold frame, sp_vec. rewrite LB.
      replace (b2z b * 65536 + b2z c * 256) with (b2z b * 65536 + b2z c * 256 + 0) by lia.
      rewrite be3_join by lia. rewrite !z2b_b2z. reflexivity.
    + rewrite !zlen_cons in H. pose proof (zlen_nonneg t). lia.
  - left. exists ty, (body ++ zeros (Z.to_nat (n - zlen body))), (ty :: be 3 n ++ body), (zeros (Z.to_nat (n - zlen body))).
    pose proof (zlen_nonneg body).
    assert (E : zlen (body ++ zeros (Z.to_nat (n - zlen body))) = n) by (rewrite zlen_app, zlen_zeros; lia).
    split; [lia|]. split; [unfold frame, sp_vec; rewrite E; cbn [app]; rewrite <- !app_assoc; reflexivity|].
    split; [|reflexivity]. intros Z0. apply (f_equal zlen) in Z0. rewrite zlen_zeros in Z0. cbn in Z0. lia.
  - right. exists ty, body, rest. split; [lia|]. unfold frame, sp_vec. rewrite L. reflexivity.
Qed.
