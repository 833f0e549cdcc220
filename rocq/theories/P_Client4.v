(** Proofs about src/client.rs: runs that exist, and what a connected client does with the records that follow (C27-C29, C32, C34, C35). *)
From Verif Require Import Spec_Client P_Util P_Codec P_RecordW P_RecordR P_Record P_Record2 P_Aead P_Fp NT_P256 NT_Order P_Limbs P_P256conv P_Points P_Scalar P_P256X P_Ecdhe P_Halt P_Client P_Client2 P_App P_App2 P_Client3.
From Coq Require Import ZifyBool ZifyNat ZifyN Znumtheory.
Import String.StringSyntax.
Local Open Scope string_scope.
Local Open Scope list_scope.
Local Open Scope Z_scope.
#[local] Opaque SHA256 HMAC aead_seal aead_decrypt aead_encrypt compute_keys PRF nmul.

(** ** Every conforming server has a run *)
Definition one_tape : rng := repeat x00 32 ++ x01 :: repeat x00 31.
Lemma one_accepted : first_accepted (skipn 32 one_tape) 0.
Proof. split; [cbn; lia|]. split; [vm_compute; reflexivity|]. intros j Hj. lia. Qed.
Lemma one_scalar : used_scalar (draw (skipn 32 one_tape) 0) = 1.
Proof. vm_compute. reflexivity. Qed.
Definition source (bs : bytes) : src := match bs with [] => [] | b :: r => [RData (b :: r)] end.
Lemma source_stream bs : stream (source bs) = bs.
Proof. destruct bs; cbn; [reflexivity|rewrite app_nil_r; reflexivity]. Qed.
Lemma source_clean bs : clean (source bs).
Proof. destruct bs as [|b r]; [constructor|]. constructor; [eauto|constructor]. Qed.
Lemma conforming_run m sv (rest : session -> bytes) : wf_server sv -> exists s ss c,
  clean s /\ agreed sv (firstn 32 one_tape) Gpt ss /\ client_new m s [] one_tape = (Ok tt, c) /\ reached m s one_tape (Complete ss) /\
  keyed m (c_reader c) (k_server (s_keys ss)) (iv_server (s_keys ss)) 1 /\
  keyed_w m (c_writer c) (k_client (s_keys ss)) (iv_client (s_keys ss)) 1 /\ healthy (c_writer c) /\
  r_buf (c_reader c) = [] /\ c_buf c = [] /\ stream (r_src (c_reader c)) = rest ss.
Proof.
  intros W. assert (G1 : nmul (Z.to_nat 1) Gpt = Gpt) by (rewrite (nmul_S 0) by lia; apply eadd_inf_r).
  destruct (server_agrees sv (firstn 32 one_tape) 1 W ltac:(lia)) as (ss & A).
  set (bs := concat (map e_handshake [server_hello_msg (s_sh ss); certificate (s_certs ss); server_key_exchange (s_ske ss); server_hello_done])).
  destruct (fragments_legal bs) as (E1 & L1 & _). set (fs1 := chunks (Z.to_nat RECORD_MAX_LEN) bs) in *.
  destruct (fin_wf (s_master ss) "server finished" (s_msgs ss ++ [s_client_fin ss])) as (_ & _ & L2). change (finished _) with (s_server_fin ss) in L2.
  set (fs2 := [e_handshake (s_server_fin ss)]).
  pose proof (honest_connects m sv one_tape 0 ss (source (served ss fs1 fs2 ++ rest ss)) [] fs1 fs2 (rest ss) W ltac:(cbn; lia) one_accepted) as H.
  rewrite one_scalar in H. specialize (H ltac:(discriminate) A (conj L1 E1)). 
  destruct H as (c & H).
  - split; [constructor; [exact L2|constructor]|]. cbn [concat fs2]. apply app_nil_r.
  - apply source_stream.
  - constructor.
  - rewrite G1 in A. exists (source (served ss fs1 fs2 ++ rest ss)), ss, c. split; [apply source_clean|]. split; [exact A|].
    destruct H as (H1 & H0 & _ & H2 & H3 & H4 & H5 & H6 & H7). auto 10.
Qed.

(** ** C35: the zero scalar *)
Lemma zero_exchange m sv g j sx sy : wf_server sv -> first_accepted g j -> used_scalar (draw g j) = 0 ->
  nmul (Z.to_nat (sv_secret sv)) Gpt = Aff sx sy ->
  compute_keys m (e_ske (Ske (sv_curve sv) (sec1 sx sy) (sv_sig sv))) g = (Ok (x41 :: enc 0 0, be 32 0), skipn (32 * S j) g).
Proof.
  intros (_ & _ & Hd & Hs) F N Es.
  assert (On : oncurve (Aff sx sy)) by (rewrite <- Es; apply on_nmul, on_G).
  destruct (decode_enc m (fval sx) (fval sy) (fval_range sx) (fval_range sy)) as [(_ & P & ED & Vx & Vy)|(X & _)];
    [|exfalso; apply X; rewrite !toF_fval; exact On].
  destruct (compute_keys_accept m _ g _ [] P j (read_ske_enc _ (wf_public sv sx sy Hs)) ED F) as (x & A & B & Hx & Vd & EA & EB & ->).
  rewrite <- Vd, <- (limbs_words x Hx) in *. f_equal. f_equal. f_equal.
  - f_equal. destruct (dh_public_spec m x Hx) as (A' & EA' & _ & _ & _ & J). rewrite EA in EA'. apply Ok_inj in EA'. subst A'.
    destruct (J N) as [Jx Jy]. unfold to_uncompressed_bytes. rewrite Jx, Jy. reflexivity.
  - destruct (decoded_ok _ _ _ ED) as [Ox Oy].
    pose proof (to_point_pok P Ox Oy) as PP. pose proof (to_point_jac P) as JP. unfold fv in JP. rewrite Vx, Vy, !toF_fval in JP.
    destruct (mult_scalar_spec m (to_point P) x PP ltac:(rewrite JP; exact On) Hx) as (R & ER & HR & JR). rewrite N in JR. 
    destruct (normalize_spec m R HR) as (S0 & ES & RSx & RSy & JS). unfold dh_shared in EB. rewrite ER in EB. cbn [rbind] in EB. rewrite EB in ES.
    apply Ok_inj in ES. subst S0. change (Z.to_nat 0) with 0%nat in JR. change (jac R = Inf) in JR. rewrite JR in JS.
    destruct JS as [JS|(_ & JS & _)]; [discriminate JS|]. apply (red_val0 _ RSx) in JS. rewrite to_bytes_spec by apply RSx. rewrite JS. reflexivity.
Qed.
Lemma origin_off_curve : ~ oncurve (Aff f0 f0).
Proof. rewrite curve_eq. apply feqb_ne. vm_compute. reflexivity. Qed.
(** the client goes on with an invalid public value and an all-zero pre-master secret *)
Lemma zero_scalar m sv g j sx sy s fs rest : wf_server sv -> (32 <= length g)%nat -> first_accepted (skipn 32 g) j -> used_scalar (draw (skipn 32 g) j) = 0 ->
  nmul (Z.to_nat (sv_secret sv)) Gpt = Aff sx sy ->
  let ss := Session (firstn 32 g) (sv_hello sv) (sv_certs sv) (e_ske (Ske (sv_curve sv) (sec1 sx sy) (sv_sig sv))) (x41 :: enc 0 0) (be 32 0) in
  first_flight ss fs -> stream s = concat (map (e_record HandshakeTy) fs) ++ rest -> reached m s g (Complete ss).
Proof.
  intros W Lg F N Es ss F1 S. assert (Lc : length (firstn 32 g) = 32%nat) by (rewrite firstn_length; lia).
  pose proof (zero_exchange m sv _ j sx sy W F N Es) as K.
  assert (G : good_session ss) by (apply sv_good; [exact W|exact Lc|cbn [length]; rewrite enc_length; reflexivity|apply be_length]).
  destruct (first_delivered m (reader_new s) ss fs rest F1 G eq_refl eq_refl eq_refl S) as (r1 & Fl & _).
  split; [exact Lg|]. split; [reflexivity|]. split; [exists r1; exact Fl|]. repeat (split; [reflexivity|]). eexists. exact K.
Qed.

(** ** Messages out of order *)
Lemma wrong_message m s p g h r' : healthy (writer_new p) -> (32 <= length g)%nat ->
  (read_handshake m (reader_new s) = (Ok h, r') /\ (forall x, h <> server_hello_msg x) \/
   (exists sh r1, read_handshake m (reader_new s) = (Ok (server_hello_msg sh), r1) /\ check_server_hello sh = Ok tt /\
      read_handshake m r1 = (Ok h, r') /\ (forall x, h <> certificate x)) \/
   (exists sh certs r1 r2, read_handshake m (reader_new s) = (Ok (server_hello_msg sh), r1) /\ check_server_hello sh = Ok tt /\
      read_handshake m r1 = (Ok (certificate certs), r2) /\ read_handshake m r2 = (Ok h, r') /\ (forall x, h <> server_key_exchange x)) \/
   (exists sh certs skx r1 r2 r3 k g', read_handshake m (reader_new s) = (Ok (server_hello_msg sh), r1) /\ check_server_hello sh = Ok tt /\
      read_handshake m r1 = (Ok (certificate certs), r2) /\ read_handshake m r2 = (Ok (server_key_exchange skx), r3) /\
      compute_keys m skx (skipn 32 g) = (Ok k, g') /\ read_handshake m r3 = (Ok h, r') /\ h <> server_hello_done)) ->
  exists c, client_new m s p g = (Err UnexpectedMessage, c) /\ 
    w_out (c_writer c) = flight_hello (firstn 32 g) ++ alert_out (Hello (firstn 32 g)) UnexpectedMessage.
Proof.
  intros H Lg Cs. unfold client_new, or_alert. rewrite phases. unfold mbind at 1, client_init.
  destruct (hello_run m (reader_new s) (writer_new p) g [] eq_refl eq_refl) as [[L R]|(L & x1 & w1 & S1 & R)]; [lia|]. rewrite R; clear R.
  destruct (sent_outcome _ _ _ _ _ S1) as [-> | ->].
  2:{ destruct S1 as ([[? _]|(_ & Hn & _)] & _); [discriminate|contradiction]. }
  pose proof S1 as ([[_ O1]|(N & _)] & A1 & B1 & H1 & C1); [|discriminate]. specialize (C1 eq_refl).
  cbn [w_enc w_iv w_count w_out writer_new app Z.add] in A1, B1, C1, O1.
  assert (E : exists c, ph_server m (Client (reader_new s) w1 (skipn 32 g) []) = (Err UnexpectedMessage, c) /\ c_writer c = w1).
  { unfold ph_server. unfold mbind at 1. rewrite expect_run.
    destruct Cs as [(F1 & Nh)|[(sh & r1 & F1 & Ck & F2 & Nh)|[(sh & certs & r1 & r2 & F1 & Ck & F2 & F3 & Nh)|
                    (sh & certs & skx & r1 & r2 & r3 & k & g' & F1 & Ck & F2 & F3 & K & F4 & Nh)]]]; rewrite F1.
    - destruct h; cbn [pick_server_hello]; try (eexists; split; reflexivity). exfalso; eapply Nh; reflexivity.
    - cbn [pick_server_hello]. unfold mbind at 1, mlift at 1. rewrite Ck. unfold mbind at 1. rewrite expect_run, F2.
      destruct h; cbn [pick_certificate]; try (eexists; split; reflexivity). exfalso; eapply Nh; reflexivity.
    - cbn [pick_server_hello]. unfold mbind at 1, mlift at 1. rewrite Ck. unfold mbind at 1. rewrite expect_run, F2.
      cbn [pick_certificate]. unfold mbind at 1. rewrite expect_run, F3.
      destruct h; cbn [pick_server_key_exchange]; try (eexists; split; reflexivity). exfalso; eapply Nh; reflexivity.
    - cbn [pick_server_hello]. unfold mbind at 1, mlift at 1. rewrite Ck. unfold mbind at 1. rewrite expect_run, F2.
      cbn [pick_certificate]. unfold mbind at 1. rewrite expect_run, F3. cbn [pick_server_key_exchange].
      unfold mbind at 1, on_rng at 1. cbn [c_reader c_writer c_rng c_buf]. rewrite K. destruct k as [pub pms].
      unfold mbind at 1. rewrite expect_run, F4.
      destruct h; cbn [pick_server_hello_done]; try (eexists; split; reflexivity). exfalso; apply Nh; reflexivity. }
  destruct E as (c1 & E & Ew). unfold mbind at 1. rewrite E.
  assert (Rd : ready m (Hello (firstn 32 g)) p (c_writer c1)).
  { rewrite Ew. split; [exact O1|]. auto. }
  destruct (alert_run m _ p (c_writer c1) UnexpectedMessage Rd) as (y & w' & Ea & S).
  cbn [send_tls_alert]. unfold on_writer. rewrite Ea.
  destruct S as ([[-> O']|(_ & Hn & _)] & _).
  - eexists. split; [reflexivity|]. cbn [c_writer]. rewrite O', Ew, O1. reflexivity.
  - exfalso. apply Hn. rewrite Ew. auto.
Qed.
(** a server that asks for a client certificate, as RFC 5246 7.4.4 allows, is refused *)
Lemma certificate_request_refused m sv cq s p g j sx sy fs rest : wf_server sv -> wf_handshake (certificate_request cq) -> healthy (writer_new p) ->
  (32 <= length g)%nat -> first_accepted (skipn 32 g) j -> nmul (Z.to_nat (sv_secret sv)) Gpt = Aff sx sy ->
  Forall legal_fragment fs ->
  concat fs = concat (map e_handshake [server_hello_msg (sv_hello sv); certificate (sv_certs sv);
    server_key_exchange (e_ske (Ske (sv_curve sv) (sec1 sx sy) (sv_sig sv))); certificate_request cq; server_hello_done]) ->
  stream s = concat (map (e_record HandshakeTy) fs) ++ rest ->
  exists c, client_new m s p g = (Err UnexpectedMessage, c) /\
    w_out (c_writer c) = flight_hello (firstn 32 g) ++ alert_out (Hello (firstn 32 g)) UnexpectedMessage.
Proof.
  intros W Wq H Lg F Es L E S.
  assert (G : good_session (Session (firstn 32 g) (sv_hello sv) (sv_certs sv) (e_ske (Ske (sv_curve sv) (sec1 sx sy) (sv_sig sv))) (repeat x00 66) (repeat x00 32))).
  { apply sv_good; [exact W|rewrite firstn_length; lia|reflexivity|reflexivity]. }
  destruct G as (_ & _ & _ & _ & G). unfold s_msgs in G. cbn [s_sh s_certs s_ske] in G.
  match type of E with _ = concat (map _ ?l) => set (hs := l) in * end.
  assert (Wh : Forall wf_handshake hs).
  { unfold hs. repeat match goal with H : Forall _ (_ :: _) |- _ => inversion H; clear H; subst end. repeat (constructor; [assumption|]). constructor. }
  destruct (clear_delivered m (reader_new s) hs fs rest Wh ltac:(cbn; lia) L E eq_refl eq_refl eq_refl S) as (r' & R & _).
  unfold hs in R. change (length _) with 5%nat in R. cbn [map] in R.
  destruct (reads_cons _ _ _ _ _ _ R) as (r1 & R1 & R'). destruct (reads_cons _ _ _ _ _ _ R') as (r2 & R2 & R'').
  destruct (reads_cons _ _ _ _ _ _ R'') as (r3 & R3 & R3'). destruct (reads_cons _ _ _ _ _ _ R3') as (r4 & R4 & _).
  assert (On : oncurve (Aff sx sy)) by (rewrite <- Es; apply on_nmul, on_G).
  destruct (decode_enc m (fval sx) (fval sy) (fval_range sx) (fval_range sy)) as [(_ & P & ED & _)|(X & _)];
    [|exfalso; apply X; rewrite !toF_fval; exact On].
  destruct W as (_ & _ & _ & Hs).
  destruct (compute_keys_accept m _ (skipn 32 g) _ [] P j (read_ske_enc _ (wf_public sv sx sy Hs)) ED F) as (x & A & B & _ & _ & _ & _ & K).
  eapply wrong_message; [exact H|exact Lg|]. right; right; right. do 8 eexists. split; [exact R1|]. split; [reflexivity|]. split; [exact R2|].
  split; [exact R3|]. split; [exact K|]. split; [exact R4|discriminate].
Qed.

(** ** Records after the handshake *)
Lemma no_pending_nil r : r_buf r = [] -> no_pending r.
Proof. intros B. unfold no_pending. rewrite B. reflexivity. Qed.
Lemma firstn_len {A} (l : list A) : firstn (length l - 0) l = l.
Proof. rewrite Nat.sub_0_r. apply firstn_all. Qed.
(** data after the peer's close_notify is delivered, by the same call *)
Lemma data_after_close m c key iv k l f rest : keyed m (c_reader c) key iv k -> no_pending (c_reader c) -> c_buf c = [] ->
  k + 2 < 2 ^ 64 -> legal_fragment f ->
  stream (r_src (c_reader c)) = sealed_record key iv k AlertTy [z2b (rfc_alert_level l); x00] ++ sealed_record key iv (k + 1) ApplicationDataTy f ++ rest ->
  exists c', client_read m (length f) c = (Ok f, c').
Proof.
  intros K NP B Hk [L1 L2] S. change x00 with (z2b (rfc_alert_desc AD_close_notify)) in S.
  destruct (read_app_alert m _ key iv k l AD_close_notify _ K S ltac:(lia) NP) as (r1 & E1 & K1 & S1 & NP1).
  destruct (read_app_data m r1 key iv (k + 1) f rest K1 S1 L2 ltac:(lia) NP1) as (r2 & E2 & _).
  assert (Lf : (0 < length f)%nat) by (unfold zlen in L1; lia).
  eexists. apply rd_read. eapply Rd_data; [exact Lf|exact B|exact E1|]. cbn [length app]. rewrite firstn_nil, skipn_nil. cbn [app].
  eapply Rd_data; [exact Lf|reflexivity|exact E2|]. cbn [length app]. rewrite firstn_len. apply Rd_full. lia.
Qed.
(** a record that fails authentication goes unreported and the records behind it are delivered *)
Lemma data_after_forgery m c key iv k t maj min z f n rest : keyed m (c_reader c) key iv k -> no_pending (c_reader c) -> c_buf c = [] ->
  k + 1 < 2 ^ 64 -> legal_fragment f -> zlen z <= 16384 + 2048 ->
  (forall p, z <> aead_seal key (rfc_nonce iv k) (rfc_ad k t maj min (zlen z - 16)) p) -> (0 < n)%nat ->
  stream (r_src (c_reader c)) = wire t maj min z ++ sealed_record key iv k ApplicationDataTy f ++ rest ->
  exists c1 c2, client_read m n c = (Ok [], c1) /\ client_read m (length f) c1 = (Ok f, c2).
Proof.
  intros K NP B Hk [L1 L2] Lz Nf Hn S.
  destruct (read_app_forged m _ key iv k t maj min z _ K S Lz ltac:(lia) Nf NP) as (r1 & E1 & K1 & S1 & NP1).
  destruct (read_app_data m r1 key iv k f rest K1 S1 L2 Hk NP1) as (r2 & E2 & _).
  assert (Lf : (0 < length f)%nat) by (unfold zlen in L1; lia).
  eexists _, _. split; [exact (read_swallows m n c _ r1 Hn B E1)|]. apply rd_read.
  eapply Rd_data; [exact Lf|reflexivity|exact E2|]. cbn [length app]. rewrite firstn_len. apply Rd_full. lia.
Qed.
(** the four kinds of records that make [read] panic *)
Lemma crashes m c key iv k bs rest n : keyed m (c_reader c) key iv k -> r_buf (c_reader c) = [] -> c_buf c = [] ->
  k + 1 < 2 ^ 64 -> (0 < n)%nat -> crashing key iv k bs -> stream (r_src (c_reader c)) = bs ++ rest -> fst (client_read m n c) = Panic.
Proof.
  intros K R B Hk Hn Cr S. pose proof (no_pending_nil _ R) as NP.
  assert (E : exists r', read_application_data m (c_reader c) = (Panic, r')).
  { destruct Cr as [(l & d & Nd & ->)|[->|[(h & W & L & ->)|(t & f & L & ->)]]].
    - destruct (read_app_alert m _ key iv k l d _ K S Hk NP) as (r1 & E1 & _). exists r1. destruct d; first [exact E1|congruence].
    - exact (read_app_ccs m _ key iv k _ K S Hk NP).
    - exact (read_app_handshake m _ key iv k h _ K W L S Hk R).
    - exact (read_app_long m _ key iv k t f _ K S L ltac:(lia) NP). }
  destruct E as (r' & E). eapply read_panics; eauto.
Qed.

(** ** The same on a connection that exists *)
Definition plain_server : server := Server (repeat x00 32) [] None [] secp256r1 1 (DigSigned (SigHash H_sha256 S_rsa) []).
Lemma plain_wf : wf_server plain_server.
Proof.
  split; [split; [split; [reflexivity|split; [discriminate|exact I]]|discriminate]|]. split; [split; [split; [constructor|discriminate]|reflexivity]|].
  split; [split; reflexivity|split; discriminate].
Qed.
(** what a conforming server may send next; [rest] is what it sends *)
Lemma plain_run m (rest : session -> bytes) : exists s g ss c, client_new m s [] g = (Ok tt, c) /\ reached m s g (Complete ss) /\
  keyed m (c_reader c) (k_server (s_keys ss)) (iv_server (s_keys ss)) 1 /\ r_buf (c_reader c) = [] /\ c_buf c = [] /\
  stream (r_src (c_reader c)) = rest ss.
Proof.
  destruct (conforming_run m plain_server rest plain_wf) as (s & ss & c & _ & _ & E & R & K & _ & _ & Rb & B & S).
  exists s, one_tape, ss, c. auto 10.
Qed.
Lemma close_refuted m : exists s g ss c f c', client_new m s [] g = (Ok tt, c) /\ reached m s g (Complete ss) /\
  stream (r_src (c_reader c)) = sealed_record (k_server (s_keys ss)) (iv_server (s_keys ss)) 1 AlertTy [x01; x00] ++
     sealed_record (k_server (s_keys ss)) (iv_server (s_keys ss)) 2 ApplicationDataTy f /\
  f <> [] /\ client_read m (length f) c = (Ok f, c').
Proof.
  destruct (plain_run m (fun ss => sealed_record (k_server (s_keys ss)) (iv_server (s_keys ss)) 1 AlertTy [x01; x00] ++
     sealed_record (k_server (s_keys ss)) (iv_server (s_keys ss)) 2 ApplicationDataTy [x41] ++ [])) as (s & g & ss & c & E & R & K & Rb & B & S).
  destruct (data_after_close m c _ _ 1 AL_warning [x41] [] K (no_pending_nil _ Rb) B ltac:(lia) ltac:(split; cbv; discriminate) S) as (c' & E').
  exists s, g, ss, c, [x41], c'. rewrite app_nil_r in S. split; [exact E|]. split; [exact R|]. split; [exact S|]. split; [discriminate|exact E'].
Qed.
Lemma forgery_refuted m : exists s g ss c z f c1 c2, client_new m s [] g = (Ok tt, c) /\ reached m s g (Complete ss) /\
  stream (r_src (c_reader c)) = e_record ApplicationDataTy z ++ sealed_record (k_server (s_keys ss)) (iv_server (s_keys ss)) 1 ApplicationDataTy f /\
  (forall a p, z <> aead_seal (k_server (s_keys ss)) (rfc_nonce (iv_server (s_keys ss)) 1) a p) /\
  f <> [] /\ client_read m 1 c = (Ok [], c1) /\ client_read m (length f) c1 = (Ok f, c2).
Proof.
  destruct (plain_run m (fun ss => e_record ApplicationDataTy [x00] ++
     sealed_record (k_server (s_keys ss)) (iv_server (s_keys ss)) 1 ApplicationDataTy [x41] ++ [])) as (s & g & ss & c & E & R & K & Rb & B & S).
  assert (F : forall a p, [x00] <> aead_seal (k_server (s_keys ss)) (rfc_nonce (iv_server (s_keys ss)) 1) a p) by (intros a; apply short_forged; cbn; lia).
  destruct (data_after_forgery m c _ _ 1 ApplicationDataTy x03 x03 [x00] [x41] 1 [] K (no_pending_nil _ Rb) B ltac:(lia) ltac:(split; cbv; discriminate)
    ltac:(cbv; discriminate) (F _) ltac:(lia) S) as (c1 & c2 & E1 & E2).
  exists s, g, ss, c, [x00], [x41], c1, c2. rewrite app_nil_r in S. split; [exact E|]. split; [exact R|]. split; [exact S|]. split; [exact F|].
  split; [discriminate|]. split; [exact E1|exact E2].
Qed.
Lemma crash_refuted m : exists s g c, client_new m s [] g = (Ok tt, c) /\ fst (client_read m 1 c) = Panic.
Proof.
  destruct (plain_run m (fun ss => sealed_record (k_server (s_keys ss)) (iv_server (s_keys ss)) 1 AlertTy [z2b (rfc_alert_level AL_fatal); z2b (rfc_alert_desc AD_internal_error)] ++ []))
    as (s & g & ss & c & E & R & K & Rb & B & S).
  exists s, g, c. split; [exact E|]. eapply crashes; [exact K|exact Rb|exact B|lia|lia| |exact S].
  left. eexists _, _. split; [|reflexivity]. discriminate.
Qed.
(** a ServerHello whose body ends too early: no alert, though the transport works *)
Definition truncated : src := [RData [x16; x03; x03; x00; x05; x02; x00; x00; x01; x03]].
Lemma truncated_silent m : exists c, client_new m truncated [] one_tape = (Err IoFailure, c) /\ w_out (c_writer c) = flight_hello (firstn 32 one_tape).
Proof. destruct m; eexists; split; vm_compute; reflexivity. Qed.
