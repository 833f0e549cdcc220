(** Proofs about src/client.rs: when [TlsClient::new] succeeds; servers that follow the protocol (C31, C35). *)
From Verif Require Import Spec_Client P_Util P_Codec P_RecordW P_RecordR P_Record P_Record2 P_Aead P_Fp NT_P256 NT_Order P_Limbs P_P256conv P_Points P_Scalar P_P256X P_Ecdhe P_Client P_Client2 P_App2.
From Coq Require Import ZifyBool ZifyNat ZifyN Znumtheory.
Import String.StringSyntax.
Local Open Scope string_scope.
Local Open Scope list_scope.
Local Open Scope Z_scope.
#[local] Opaque SHA256 HMAC aead_seal compute_keys PRF nmul.

(** ** Success is determined *)
Lemma reached_det m s g a b : reached m s g (Complete a) -> reached m s g (Complete b) -> a = b.
Proof.
  destruct a as [cr sh certs skx pub pms], b as [cr' sh' certs' skx' pub' pms'].
  intros (_ & C & (r & r1 & r2 & r3 & A1 & A2 & A3 & A4) & _ & _ & _ & (g1 & K)) (_ & C' & (r' & r1' & r2' & r3' & A1' & A2' & A3' & A4') & _ & _ & _ & (g1' & K')).
  cbn [s_cr s_sh s_certs s_ske s_cke s_pms] in *. subst cr cr'.
  rewrite A1 in A1'. apply pair_equal_spec in A1' as [X <-]. apply Ok_inj in X. injection X as <-.
  rewrite A2 in A2'. apply pair_equal_spec in A2' as [X <-]. apply Ok_inj in X. injection X as <-.
  rewrite A3 in A3'. apply pair_equal_spec in A3' as [X <-]. apply Ok_inj in X. injection X as <-.
  rewrite K in K'. apply pair_equal_spec in K' as [X _]. apply Ok_inj in X. apply pair_equal_spec in X as [<- <-]. reflexivity.
Qed.
Lemma answered_det m s ss r1 r2 : answered m s ss r1 -> answered m s ss r2 -> r1 = r2.
Proof.
  intros (q & (a1 & a2 & a3 & A1 & A2 & A3 & A4) & (a4 & B1 & B2)) (q' & (b1 & b2 & b3 & A1' & A2' & A3' & A4') & (b4 & B1' & B2')).
  rewrite A1 in A1'. apply pair_equal_spec in A1' as [_ <-]. rewrite A2 in A2'. apply pair_equal_spec in A2' as [_ <-].
  rewrite A3 in A3'. apply pair_equal_spec in A3' as [_ <-]. rewrite A4 in A4'. apply pair_equal_spec in A4' as [_ <-].
  rewrite B1 in B1'. apply pair_equal_spec in B1' as [_ <-]. rewrite B2 in B2'. apply pair_equal_spec in B2' as [_ <-]. reflexivity.
Qed.
Lemma connects m s p g ss r : healthy (writer_new p) -> reached m s g (Complete ss) -> answered m s ss r ->
  exists c, client_new m s p g = (Ok tt, c) /\ c_reader c = r /\ ready m (Complete ss) p (c_writer c) /\ c_buf c = [].
Proof.
  intros H R A. unfold client_new, or_alert. destruct (client_handshake m (client_init s p g)) as [y c1] eqn:E.
  apply handshake_cases in E as (B & [(ss' & -> & R' & A' & W)|[(st & F & R' & W & N)|(st & -> & R' & W)]]).
  - rewrite (reached_det _ _ _ _ _ R' R) in *. exists c1. split; [reflexivity|]. split; [eapply answered_det; eauto|]. auto.
  - exfalso. destruct st as [|cr|ss']; [destruct N as [_ N]; destruct R as [R _]; lia|exact (N _ R)|].
    rewrite (reached_det _ _ _ _ _ R' R) in *. exact (N _ A).
  - exfalso. destruct W as [W _]. exact (W H).
Qed.
Lemma connects_iff m s p g : healthy (writer_new p) ->
  ((exists c, client_new m s p g = (Ok tt, c)) <-> exists ss r, reached m s g (Complete ss) /\ answered m s ss r).
Proof.
  intros H. split.
  - intros (c & E). apply client_new_cases in E. inversion E; subst. eauto.
  - intros (ss & r & R & A). destruct (connects m s p g ss r H R A) as (c & E & _). eauto.
Qed.

(** ** Delivery of the flights *)
Lemma read_handshake_message m r h r' : read_message m r = (Ok (HandshakeMessage h), r') -> read_handshake m r = (Ok h, r').
Proof. intros E. unfold read_handshake, mbind. rewrite E. reflexivity. Qed.
Lemma fragments_bound fs : Forall legal_fragment fs -> zlen fs <= zlen (concat fs).
Proof.
  induction 1 as [|f fs [H _] _ IH]; [reflexivity|]. cbn [concat]. rewrite zlen_cons, zlen_app. lia.
Qed.
Lemma reads_cons {A} (act : M reader A) n r a l r' : reads act (S n) r = (Ok a :: l, r') ->
  exists r1, act r = (Ok a, r1) /\ reads act n r1 = (l, r').
Proof.
  cbn [reads]. destruct (act r) as [[x| | |] r1] eqn:E.
  - destruct (reads act n r1) as [xs r2] eqn:E2. intros H. inversion H; subst. exists r1. auto.
  - destruct (reads act n r1) as [xs r2]. discriminate.
  - discriminate.
  - discriminate.
Qed.
Lemma reads_handshakes m hs : forall r r', reads (read_message m) (length hs) r = (map Ok (map HandshakeMessage hs), r') ->
  reads (read_handshake m) (length hs) r = (map Ok hs, r').
Proof.
  induction hs as [|h hs IH]; intros r r' R; [cbn in *; apply pair_equal_spec in R as [_ <-]; reflexivity|]. cbn [length map] in R. destruct (reads_cons _ _ _ _ _ _ R) as (r1 & R1 & R2).
  cbn [length map reads]. rewrite (read_handshake_message _ _ _ _ R1), (IH _ _ R2). reflexivity.
Qed.
(** any short sequence of messages, in any fragmentation *)
Lemma clear_delivered m r hs fs rest : Forall wf_handshake hs -> zlen hs <= 100 -> Forall legal_fragment fs -> concat fs = concat (map e_handshake hs) ->
  r_dec r = None -> r_buf r = [] -> r_count r = 0 -> stream (r_src r) = concat (map (e_record HandshakeTy) fs) ++ rest ->
  exists r', reads (read_handshake m) (length hs) r = (map Ok hs, r') /\ r_dec r' = None /\ r_iv r' = r_iv r /\ r_buf r' = [] /\
    stream (r_src r') = rest /\ 0 <= r_count r' < 2 ^ 32.
Proof.
  intros W Lh L E D B C S. pose proof (msgs_bound hs W) as Bd. rewrite <- E in Bd. pose proof (fragments_bound fs L) as Bf.
  pose proof (zlen_nonneg fs) as N0.
  destruct (wire_steps m HandshakeTy x03 x03 fs fs r rest eq_refl) as (r' & Y & S' & _ & Er).
  { intros i f s Hf Hs. rewrite Hf in Hs. inversion Hs; subst s. rewrite D. cbn.
    apply nth_error_In in Hf. rewrite Forall_forall in L. specialize (L f Hf). destruct L. split; [reflexivity|]. lia. }
  { exact S. } { lia. } { lia. }
  destruct (reassembly_all m x03 x03 hs fs r r' W) as (R & B'); [eapply Forall_impl; [|exact L]; exact legal_nonempty|exact B|exact E|exact Y|].
  exists r'. split; [apply reads_handshakes; exact R|].
  rewrite Er. cbn [set_count set_src r_dec r_iv r_count r_src r_buf]. rewrite B. repeat (split; [assumption || reflexivity|]). lia.
Qed.
Lemma first_delivered m r ss fs rest : first_flight ss fs -> good_session ss -> r_dec r = None -> r_buf r = [] -> r_count r = 0 ->
  stream (r_src r) = concat (map (e_record HandshakeTy) fs) ++ rest ->
  exists r', server_flight m r (s_sh ss) (s_certs ss) (s_ske ss) r' /\ r_dec r' = None /\ r_iv r' = r_iv r /\ r_buf r' = [] /\
    stream (r_src r') = rest /\ 0 <= r_count r' < 2 ^ 32.
Proof.
  intros [L E] (_ & _ & _ & _ & F) D B C S. unfold s_msgs in F.
  set (hs := [server_hello_msg (s_sh ss); certificate (s_certs ss); server_key_exchange (s_ske ss); server_hello_done]) in *.
  assert (W : Forall wf_handshake hs).
  { unfold hs. repeat match goal with H : Forall _ (_ :: _) |- _ => inversion H; clear H; subst end. repeat (constructor; [assumption|]). constructor. }
  destruct (clear_delivered m r hs fs rest W ltac:(cbn; lia) L E D B C S) as (r' & R & P). exists r'. split; [|exact P].
  unfold hs in R. change (length _) with 4%nat in R. cbn [map] in R.
  destruct (reads_cons _ _ _ _ _ _ R) as (r1 & R1 & R'). destruct (reads_cons _ _ _ _ _ _ R') as (r2 & R2 & R'').
  destruct (reads_cons _ _ _ _ _ _ R'') as (r3 & R3 & R3'). destruct (reads_cons _ _ _ _ _ _ R3') as (r4 & R4 & R4').
  cbn [reads map] in R4'. apply pair_equal_spec in R4' as [_ <-]. exists r1, r2, r3. auto.
Qed.

Lemma ccs_delivered m r rest : r_dec r = None -> r_buf r = [] -> 0 <= r_count r < 2 ^ 32 ->
  stream (r_src r) = e_record ChangeCipherSpecTy [x01] ++ rest ->
  exists r', read_change_cipher_spec m r = (Ok tt, r') /\ r_dec r' = None /\ r_iv r' = r_iv r /\ r_buf r' = [] /\ stream (r_src r') = rest.
Proof.
  intros D B C S. destruct (wire_step m r ChangeCipherSpecTy x03 x03 [x01] [x01] rest S) as (s' & S' & _ & R); try (cbn; lia).
  - rewrite D. reflexivity.
  - destruct (ccs_validated m r _ _ ltac:(rewrite B; reflexivity) R eq_refl) as [[_ E]|[N _]]; [|exfalso; apply N; reflexivity].
    eexists. unfold read_change_cipher_spec, mbind. rewrite E. split; [reflexivity|].
    cbn [set_count set_src r_dec r_iv r_count r_src r_buf]. auto.
Qed.
Lemma sealed_yields m key iv t : forall fs r k rest, keyed m r key iv k -> stream (r_src r) = sealed_stream key iv k t fs ++ rest ->
  Forall legal_fragment fs -> k + zlen fs < 2 ^ 64 ->
  exists r', yields m r (map (Rec t x03 x03) fs) r' /\ keyed m r' key iv (k + zlen fs) /\ stream (r_src r') = rest /\ r_buf r' = r_buf r.
Proof.
  induction fs as [|f fs IH]; intros r k rest K S L C.
  - exists r. rewrite zlen_nil, Z.add_0_r. split; [constructor|]. auto.
  - rewrite zlen_cons in *. cbn [sealed_stream] in S. rewrite <- app_assoc in S. inversion L; subst. pose proof (zlen_nonneg fs).
    match goal with X : legal_fragment f |- _ => pose proof X as [_ Lf] end.
    destruct (sealed_step m r key iv k t f _ K S Lf) as (r1 & R & K1 & S1 & _ & B1); [lia|].
    destruct (IH r1 (k + 1) rest K1 S1) as (r2 & Y & K2 & S2 & B2); [assumption|lia|].
    exists r2. split; [cbn [map]; econstructor; eauto|]. replace (k + (1 + zlen fs)) with (k + 1 + zlen fs) by lia. split; [exact K2|].
    split; [exact S2|congruence].
Qed.
Lemma second_delivered m r ss fs rest : second_flight ss fs -> keyed m r (k_server (s_keys ss)) (iv_server (s_keys ss)) 0 -> r_buf r = [] ->
  stream (r_src r) = sealed_stream (k_server (s_keys ss)) (iv_server (s_keys ss)) 0 HandshakeTy fs ++ rest ->
  exists r', read_handshake m r = (Ok (s_server_fin ss), r') /\ keyed m r' (k_server (s_keys ss)) (iv_server (s_keys ss)) (zlen fs) /\
    r_buf r' = [] /\ stream (r_src r') = rest.
Proof.
  intros [L E] K B S. destruct (fin_wf (s_master ss) "server finished" (s_msgs ss ++ [s_client_fin ss])) as (W & L16 & _).
  change (finished _) with (s_server_fin ss) in W, L16. pose proof (fragments_bound fs L) as Bf. rewrite E, L16 in Bf.
  destruct (sealed_yields m _ _ HandshakeTy fs r 0 rest K S L ltac:(lia)) as (r' & Y & K' & S' & B').
  destruct (reassembly_all m x03 x03 [s_server_fin ss] fs r r' ltac:(constructor; [exact W|constructor])) as (R & B2).
  - eapply Forall_impl; [|exact L]; exact legal_nonempty.
  - exact B.
  - cbn [map concat]. rewrite app_nil_r. exact E.
  - exact Y.
  - cbn [length map] in R. destruct (reads_cons _ _ _ _ _ _ R) as (r1 & R1 & R2). cbn [reads map] in R2. apply pair_equal_spec in R2 as [_ <-].
    exists r1. split; [apply read_handshake_message; exact R1|]. auto.
Qed.
Lemma served_answers m s ss fs1 fs2 rest : good_session ss -> first_flight ss fs1 -> second_flight ss fs2 ->
  stream s = served ss fs1 fs2 ++ rest ->
  exists r1 r', server_flight m (reader_new s) (s_sh ss) (s_certs ss) (s_ske ss) r1 /\ answered m s ss r' /\
    keyed m r' (k_server (s_keys ss)) (iv_server (s_keys ss)) (zlen fs2) /\ r_buf r' = [] /\ stream (r_src r') = rest.
Proof.
  intros G F1 F2 S. unfold served in S. rewrite <- !app_assoc in S.
  destruct (first_delivered m (reader_new s) ss fs1 _ F1 G eq_refl eq_refl eq_refl S) as (r1 & Fl & D1 & _ & B1 & S1 & C1).
  destruct (ccs_delivered m (ived_reader r1 (s_keys ss)) _ D1 B1 C1 S1) as (r2 & R2 & D2 & I2 & B2 & S2).
  destruct (key_block_lengths (s_master ss) (s_cr ss) (sh_random (s_sh ss))) as (_ & K2 & _ & K4).
  assert (K : keyed m (decrypting m r2 (s_keys ss)) (k_server (s_keys ss)) (iv_server (s_keys ss)) 0).
  { split; [reflexivity|]. split; [exact I2|]. split; [reflexivity|]. split; [exact K2|]. split; [exact K4|lia]. }
  destruct (second_delivered m (decrypting m r2 (s_keys ss)) ss fs2 rest F2 K B2 S2) as (r3 & R3 & K3 & B3 & S3).
  exists r1, r3. split; [exact Fl|]. split; [|auto]. exists r1. split; [exact Fl|]. exists r2. split; [exact R2|exact R3].
Qed.

(** ** The key exchange *)
Lemma order_divides k : 0 <= k -> ~ (n256 | k) -> nmul (Z.to_nat k) Gpt <> Inf.
Proof.
  intros Hk ND E. assert (R : rel_prime k n256) by (apply rel_prime_sym, prime_rel_prime; [apply prime_n256|exact ND]).
  apply rel_prime_bezout in R. destruct R as [u v B]. assert (G0 : Gpt <> Inf) by discriminate. apply G0.
  assert (K0 : 0 < k) by (destruct (Z.eq_dec k 0) as [->|]; [exfalso; apply ND, Z.divide_0_r|lia]).
  destruct (bezout_sign' k n256 u v K0 ltac:(reflexivity) B) as [(H1 & H2 & H3)|(H1 & H2 & H3)].
  - exact (nmul_lin Gpt n256 k v (- u) on_G n256_nn Hk H2 H1 order_n E H3).
  - exact (nmul_lin Gpt k n256 u (- v) on_G Hk n256_nn H1 H2 E order_n H3).
Qed.
Lemma order_eq : P256_order = n256. Proof. reflexivity. Qed.
Lemma product_finite d e : 0 < d < n256 -> 0 < e < n256 -> nmul (Z.to_nat (d * e)) Gpt <> Inf.
Proof.
  intros Hd He. apply order_divides; [apply Z.mul_nonneg_nonneg; lia|]. intros D. apply prime_mult in D; [|apply prime_n256].
  destruct D as [D|D]; apply Z.divide_pos_le in D; lia.
Qed.
Lemma limbs_words (v : list Z) : int256_ok v -> eff_scalar v = used_scalar (limbs_val v).
Proof.
  intros Hv. destruct (int256_cases v Hv) as (a & b & c & d & e & f & g & h & -> & A & B0 & C & D & E & F & G0 & H).
  unfold eff_scalar, used_scalar. cbn [nth limbs_val]. rewrite Z.mul_0_r, Z.add_0_r.
  assert (M : forall x y, 0 <= x < 2 ^ 32 -> (x + 2 ^ 32 * y) mod 256 = x mod 256).
  { intros x y _. change (2 ^ 32) with (2 ^ 24 * 256). rewrite <- Z.mul_assoc, (Z.mul_comm 256), Z.mul_assoc. apply Z.mod_add. lia. }
  assert (Q : forall x y, 0 <= x < 2 ^ 32 -> (x + 2 ^ 32 * y) / 2 ^ 32 = y).
  { intros x y Hx. rewrite Z.mul_comm, Z.div_add by lia. rewrite Z.div_small by exact Hx. reflexivity. }
  assert (Q2 : forall x n, 0 <= n -> x / 2 ^ (32 + n) = x / 2 ^ 32 / 2 ^ n).
  { intros x n Hn. rewrite Z.pow_add_r, Z.div_div by lia. reflexivity. }
  change (2 ^ 64) with (2 ^ (32 + 32)). change (2 ^ 96) with (2 ^ (32 + (32 + 32))). change (2 ^ 128) with (2 ^ (32 + (32 + (32 + 32)))).
  change (2 ^ 160) with (2 ^ (32 + (32 + (32 + (32 + 32))))). change (2 ^ 192) with (2 ^ (32 + (32 + (32 + (32 + (32 + 32)))))).
  rewrite !Q2 by lia. rewrite !Q by assumption. rewrite !M by assumption. reflexivity.
Qed.
Lemma used_range x : 0 <= used_scalar x < 2 ^ 56.
Proof.
  unfold used_scalar. pose proof (Z.mod_pos_bound x 256). pose proof (Z.mod_pos_bound (x / 2 ^ 32) 256). pose proof (Z.mod_pos_bound (x / 2 ^ 64) 256).
  pose proof (Z.mod_pos_bound (x / 2 ^ 96) 256). pose proof (Z.mod_pos_bound (x / 2 ^ 128) 256). pose proof (Z.mod_pos_bound (x / 2 ^ 160) 256).
  pose proof (Z.mod_pos_bound (x / 2 ^ 192) 256). 
  generalize dependent (x mod 256). generalize dependent (x / 2 ^ 32 mod 256). generalize dependent (x / 2 ^ 64 mod 256).
  generalize dependent (x / 2 ^ 96 mod 256). generalize dependent (x / 2 ^ 128 mod 256). generalize dependent (x / 2 ^ 160 mod 256).
  generalize dependent (x / 2 ^ 192 mod 256). intros. lia.
Qed.
Lemma sec1_enc x y : sec1 x y = enc (fval x) (fval y).
Proof. reflexivity. Qed.
Lemma wf_public sv sx sy : wf_digitally_signed (sv_sig sv) -> wf_ske (Ske (sv_curve sv) (sec1 sx sy) (sv_sig sv)).
Proof.
  intros W. split; [|exact W]. cbn [ske_public]. rewrite sec1_enc. unfold in_range, zlen. rewrite enc_length. lia.
Qed.
(** what the client computes from this server's message is what the server computes *)
Lemma exchange_agrees m sv g j ss cr : wf_server sv -> first_accepted g j -> used_scalar (draw g j) <> 0 ->
  agreed sv cr (nmul (Z.to_nat (used_scalar (draw g j))) Gpt) ss ->
  compute_keys m (s_ske ss) g = (Ok (s_cke ss, s_pms ss), skipn (32 * S j) g).
Proof.
  intros (_ & _ & Hd & Hs) F N (sx & sy & cx & cy & zx & zy & Es & Ec & Ez & ->). cbn [s_ske s_cke s_pms].
  rewrite order_eq in Hd.
  assert (On : oncurve (Aff sx sy)) by (rewrite <- Es; apply on_nmul, on_G).
  destruct (decode_enc m (fval sx) (fval sy) (fval_range sx) (fval_range sy)) as [(_ & P & ED & Vx & Vy)|(X & _)];
    [|exfalso; apply X; rewrite !toF_fval; exact On].
  destruct (compute_keys_accept m _ g _ [] P j (read_ske_enc _ (wf_public sv sx sy Hs)) ED F) as (x & A & B & Hx & Vd & EA & EB & ->).
  rewrite <- Vd, <- (limbs_words x Hx) in *. f_equal. f_equal. f_equal.
  - f_equal. destruct (dh_public_spec m x Hx) as (A' & EA' & Rx & Ry & J & _). rewrite EA in EA'. apply Ok_inj in EA'. subst A'.
    specialize (J N). rewrite Ec in J. apply Aff_inj in J as [<- <-]. apply encode_sec1; assumption.
  - destruct (decoded_ok _ _ _ ED) as [Ox Oy].
    pose proof (to_point_pok P Ox Oy) as PP. pose proof (to_point_jac P) as JP. unfold fv in JP. rewrite Vx, Vy, !toF_fval in JP.
    destruct (mult_scalar_spec m (to_point P) x PP ltac:(rewrite JP; exact On) Hx) as (R & ER & HR & JR).
    destruct (normalize_spec m R HR) as (S0 & ES & RSx & RSy & JS). unfold dh_shared in EB. rewrite ER in EB. cbn [rbind] in EB. rewrite EB in ES.
    apply Ok_inj in ES. subst S0. rewrite JP, <- Es, nmul_comm, Ez in JR by apply on_G. rewrite JR in JS.
    destruct JS as [JS|(JS & _)]; [|discriminate JS]. apply Aff_inj in JS as [-> _].
    rewrite to_bytes_spec by apply RSx. unfold fv. rewrite fval_toF, Z.mod_small; [reflexivity|]. split; [apply limbs_val_range, RSx|apply RSx].
Qed.
(** the server can always do its part *)
Lemma server_agrees sv cr e : wf_server sv -> 0 < e < 2 ^ 56 -> exists ss, agreed sv cr (nmul (Z.to_nat e) Gpt) ss.
Proof.
  intros (_ & _ & Hd & _) He. rewrite order_eq in Hd. assert (He' : 0 < e < n256) by (split; [lia|eapply Z.lt_trans; [apply He|reflexivity]]).
  assert (Cs : forall Q : pt, Q <> Inf -> exists a b, Q = Aff a b) by (intros [|a b] NQ; [exfalso; apply NQ; reflexivity|exists a, b; reflexivity]).
  destruct (Cs _ (order_exact _ Hd)) as (sx & sy & Es). destruct (Cs _ (order_exact _ He')) as (cx & cy & Ec).
  pose proof (product_finite _ _ Hd He') as NP. rewrite Z2Nat.inj_mul, nmul_mul in NP by (apply on_G || lia).
  destruct (Cs _ NP) as (zx & zy & Ez). eexists. exists sx, sy, cx, cy, zx, zy. split; [exact Es|]. split; [exact Ec|]. split; [exact Ez|reflexivity].
Qed.

(** ** C35 *)
Lemma sv_good sv cr cke pms sx sy : wf_server sv -> length cr = 32%nat -> length cke = 66%nat -> length pms = 32%nat ->
  good_session (Session cr (sv_hello sv) (sv_certs sv) (e_ske (Ske (sv_curve sv) (sec1 sx sy) (sv_sig sv))) cke pms).
Proof.
  intros (W1 & W2 & _ & W3) L Lk Lp. split; [exact L|]. split; [apply W1|]. split; [exact Lp|]. split; [exact Lk|].
  unfold s_msgs. cbn [s_cr s_sh s_certs s_ske s_cke]. constructor; [apply wf_offer; exact L|]. constructor; [split; [exact W1|]|]. 
  { destruct W1 as ((R & Se & X) & _). cbn [e_hs_body]. unfold e_server_hello. rewrite !zlen_app, sp_vec_len.
    cbn [sv_hello sh_random sh_session sh_exts sh_version sh_suite sh_comp] in *. unfold zlen at 2. rewrite R.
    change (zlen (e_version _)) with 2. change (zlen (e_suite _)) with 2. change (zlen (e_comp _)) with 1.
    assert (zlen (e_exts (sv_exts sv)) <= 65537).
    { destruct (sv_exts sv) as [l|]; cbn [e_exts]; [|cbn; lia]. destruct X as [_ X]. unfold e_ext_vec. rewrite sp_vec_len. lia. }
    lia. }
  constructor; [exact W2|]. constructor; [split; [exact I|]|].
  { cbn [e_hs_body]. unfold e_ske, e_digitally_signed. cbn [ske_curve ske_public ske_signed]. rewrite !zlen_app, !sp_vec_len.
    rewrite sec1_enc. unfold zlen at 3. rewrite enc_length. unfold wf_digitally_signed, in_range in W3.
    change (zlen [x03]) with 1. assert (zlen (e_curve (sv_curve sv)) = 2) as -> by (unfold e_curve; rewrite zlen_be; reflexivity).
    assert (zlen (e_sig_hash (ds_alg (sv_sig sv))) = 2) as -> by reflexivity. lia. }
  constructor; [split; [exact I|reflexivity]|]. constructor; [apply cke_wf; exact Lk|constructor].
Qed.
Lemma agreed_good sv g j cr ss : wf_server sv -> length cr = 32%nat -> first_accepted g j -> used_scalar (draw g j) <> 0 ->
  agreed sv cr (nmul (Z.to_nat (used_scalar (draw g j))) Gpt) ss -> good_session ss.
Proof.
  intros W L F N A. pose proof (exchange_agrees Release sv g j ss cr W F N A) as K. apply keys_lengths in K as (Lp & Lk & _).
  destruct A as (sx & sy & cx & cy & zx & zy & _ & _ & _ & ->). apply sv_good; assumption.
Qed.
(** any run whose messages are delivered ends with a connection *)
Lemma session_connects m g ss s p fs1 fs2 rest : good_session ss -> (32 <= length g)%nat -> s_cr ss = firstn 32 g ->
  check_server_hello (s_sh ss) = Ok tt -> (exists g', compute_keys m (s_ske ss) (skipn 32 g) = (Ok (s_cke ss, s_pms ss), g')) ->
  first_flight ss fs1 -> second_flight ss fs2 -> stream s = served ss fs1 fs2 ++ rest -> healthy (writer_new p) ->
  exists c, client_new m s p g = (Ok tt, c) /\ reached m s g (Complete ss) /\ w_out (c_writer c) = stage_out (Complete ss) /\
    keyed m (c_reader c) (k_server (s_keys ss)) (iv_server (s_keys ss)) (zlen fs2) /\
    keyed_w m (c_writer c) (k_client (s_keys ss)) (iv_client (s_keys ss)) 1 /\ healthy (c_writer c) /\
    r_buf (c_reader c) = [] /\ c_buf c = [] /\ stream (r_src (c_reader c)) = rest.
Proof.
  intros G Lg Ec Ck K F1 F2 S H.
  destruct (served_answers m s ss fs1 fs2 rest G F1 F2 S) as (r1 & r' & Fl & An & Kd & Bf & Sr).
  assert (R : reached m s g (Complete ss)).
  { apply check_inv in Ck as (V & Su & Co). split; [exact Lg|]. split; [exact Ec|]. split; [exists r1; exact Fl|]. auto. }
  destruct (connects m s p g ss r' H R An) as (c & E & Er & (O & Hc & E1 & E2 & E3) & B). specialize (Hc H). exists c. subst r'.
  destruct (key_block_lengths (s_master ss) (s_cr ss) (sh_random (s_sh ss))) as (K1 & _ & K3 & _).
  do 4 (split; [assumption|]). split; [repeat (split; [assumption|]); lia|]. auto.
Qed.
Theorem honest_connects m sv g j ss s p fs1 fs2 rest : wf_server sv -> (32 <= length g)%nat -> first_accepted (skipn 32 g) j ->
  used_scalar (draw (skipn 32 g) j) <> 0 ->
  agreed sv (firstn 32 g) (nmul (Z.to_nat (used_scalar (draw (skipn 32 g) j))) Gpt) ss ->
  first_flight ss fs1 -> second_flight ss fs2 -> stream s = served ss fs1 fs2 ++ rest -> healthy (writer_new p) ->
  exists c, client_new m s p g = (Ok tt, c) /\ reached m s g (Complete ss) /\ w_out (c_writer c) = stage_out (Complete ss) /\
    keyed m (c_reader c) (k_server (s_keys ss)) (iv_server (s_keys ss)) (zlen fs2) /\
    keyed_w m (c_writer c) (k_client (s_keys ss)) (iv_client (s_keys ss)) 1 /\ healthy (c_writer c) /\
    r_buf (c_reader c) = [] /\ c_buf c = [] /\ stream (r_src (c_reader c)) = rest.
Proof.
  intros W Lg F N A F1 F2 S H. assert (Lc : length (firstn 32 g) = 32%nat) by (rewrite firstn_length; lia).
  pose proof (exchange_agrees m sv _ j ss _ W F N A) as K. pose proof (agreed_good sv _ j _ ss W Lc F N A) as G.
  eapply session_connects; eauto; destruct A as (sx & sy & cx & cy & zx & zy & _ & _ & _ & ->); reflexivity.
Qed.
