(** Proofs about the handshake of src/client.rs: its phases. *)
From Verif Require Import Spec_Client P_Util P_Codec P_RecordW P_RecordR P_Record P_Record2 P_Sha2 P_Prf P_Aead P_Ecdhe P_P256X P_Halt.
From Coq Require Import ZifyBool ZifyNat ZifyN.
Import String.StringSyntax.
Local Open Scope string_scope.
Local Open Scope list_scope.
Local Open Scope Z_scope.
#[local] Opaque SHA256 HMAC aead_seal.

(** ** PRF outputs *)
Lemma PRF_pslice secret label seed n : PRF secret label seed n = pslice secret (ascii label ++ seed) 0 n.
Proof.
  unfold PRF. rewrite P_hash_pslice, firstn_pslice; [reflexivity|].
  pose proof (Nat.div_mod n 32 ltac:(lia)). pose proof (Nat.mod_upper_bound n 32 ltac:(lia)). lia.
Qed.
Lemma PRF_length secret label seed n : length (PRF secret label seed n) = n.
Proof. rewrite PRF_pslice. apply pslice_length. Qed.
Lemma prf_bytes_spec m secret label seed n : (length secret <= 64)%nat -> zlen (ascii label ++ seed) + 96 < 2 ^ 61 ->
  prf_bytes m secret (ascii label ++ seed) n = Ok (PRF secret label seed n).
Proof.
  intros Hs He. unfold prf_bytes. destruct (prf_new_at secret _ Hs He m) as (p & -> & H). cbn [rbind].
  destruct (get_bytes_at secret _ Hs He m 0 n p H) as (p' & -> & _). cbn [rbind]. rewrite PRF_pslice. reflexivity.
Qed.

Lemma key_block_lengths ms cr sr : let K := key_block ms cr sr in
  length (k_client K) = 32%nat /\ length (k_server K) = 32%nat /\ length (iv_client K) = 12%nat /\ length (iv_server K) = 12%nat.
Proof.
  unfold key_block. cbv zeta. cbn [k_client k_server iv_client iv_server].
  rewrite !firstn_length, !skipn_length, !PRF_length. repeat split; reflexivity.
Qed.
Lemma verify_data_length ms label hs : length (verify_data ms label hs) = 12%nat.
Proof. apply PRF_length. Qed.

(** ** Writing one record *)
(** [bs] reached the transport as [n] records, with keys unchanged *)
Definition sent (w : writer) (bs : bytes) (n : Z) (x : res unit) (w' : writer) : Prop :=
  emitted w x w' bs /\ w_enc w' = w_enc w /\ w_iv w' = w_iv w /\ (healthy w -> healthy w') /\
  (x = Ok tt -> w_count w' = w_count w + n).
Lemma sent_outcome w bs n x w' : sent w bs n x w' -> x = Ok tt \/ x = Err IoFailure.
Proof. intros ([[H _]|[H _]] & _); auto. Qed.

Lemma write_one_clear m t f w : legal_fragment f -> w_enc w = None -> 0 <= w_count w -> w_count w + 1 < 2 ^ 64 ->
  exists x w', write_data m t f w = (x, w') /\ sent w (e_record t f) 1 x w'.
Proof.
  intros L E C C'. destruct (write_fragments_clear m t [f] ltac:(constructor; [exact L|constructor]) w E C) as (x & w' & W & Em & A & B & H & D).
  - change (zlen [f]) with 1. exact C'.
  - exists x, w'. unfold write_data. rewrite chunks_small by exact L. split; [exact W|].
    cbn [map concat] in Em. rewrite app_nil_r in Em. split; [exact Em|]. split; [congruence|]. auto.
Qed.
Lemma write_one_sealed m t f w key iv : legal_fragment f -> length key = 32%nat -> length iv = 12%nat ->
  w_enc w = Some (new_encryptor m key) -> w_iv w = Some iv -> 0 <= w_count w -> w_count w + 1 < 2 ^ 64 ->
  exists x w', write_data m t f w = (x, w') /\ sent w (sealed_record key iv (w_count w) t f) 1 x w'.
Proof.
  intros L Hk Hi E I C C'.
  destruct (write_fragments_sealed m t (new_encryptor m key) iv 16 [f] Hi (aead_seals m key Hk) ltac:(lia)
              ltac:(constructor; [exact L|constructor]) w E I C) as (x & w' & ss & W & [SL SA] & _ & Em & A & B & H & D).
  - change (zlen [f]) with 1. exact C'.
  - exists x, w'. unfold write_data. rewrite chunks_small by exact L. split; [exact W|].
    destruct ss as [|s [|s' ss]]; try discriminate SL. specialize (SA 0%nat f s eq_refl eq_refl). rewrite Z.add_0_r in SA.
    assert (Hn : length (rfc_nonce iv (w_count w)) = 12%nat).
    { rewrite <- seq_nonce_rfc by (try assumption; lia). apply seq_nonce_length. }
    unfold new_encryptor in SA. rewrite aead_encrypt_spec in SA; [|assumption|assumption|apply fits_record; destruct L; lia].
    apply Ok_inj in SA. subst s. cbn [map concat] in Em. rewrite app_nil_r in Em. split; [exact Em|]. split; [congruence|]. split; [congruence|]. auto.
Qed.
Lemma sent_seq w a n x1 w1 b k x2 w2 : sent w a n x1 w1 -> x1 = Ok tt -> sent w1 b k x2 w2 -> sent w (a ++ b) (n + k) x2 w2.
Proof.
  intros (E1 & A1 & B1 & H1 & C1) X (E2 & A2 & B2 & H2 & C2). split; [eapply emitted_cons; eauto|].
  split; [congruence|]. split; [congruence|]. split; [auto|]. intros X2. rewrite (C2 X2), (C1 X). lia.
Qed.
Lemma sent_cut w a n x1 w1 b k : sent w a n x1 w1 -> x1 <> Ok tt -> sent w (a ++ b) k x1 w1.
Proof.
  intros (E1 & A1 & B1 & H1 & C1) X. split; [apply emitted_cut; assumption|]. repeat split; auto. intros X'. contradiction.
Qed.

(** ** The phases *)
Definition ph_hello (m : mode) : M client (bytes * handshake) :=
  do* cli_random := on_rng (rng_fill 32) in
  do* random := mlift (array_new 32 cli_random) in
  do* ch := mlift (make_client_hello random) in
  do* _ := on_writer (write_handshake m ch) in
  mret (cli_random, ch).
Definition ph_server (m : mode) : M client (server_hello * list bytes * bytes * bytes * bytes) :=
  do* sh := expect m pick_server_hello in
  do* _ := mlift (check_server_hello sh) in
  do* certificate_list := expect m pick_certificate in
  do* server_key_ex_data := expect m pick_server_key_exchange in
  do* (key_data, pre_master_secret) := on_rng (compute_keys m server_key_ex_data) in
  do* _ := expect m pick_server_hello_done in
  mret (sh, certificate_list, server_key_ex_data, key_data, pre_master_secret).
Definition ph_exchange (m : mode) (key_data : bytes) : M client handshake :=
  do* cke := mlift (new_client_key_exchange key_data) in
  do* _ := on_writer (write_handshake m cke) in
  do* _ := on_writer (write_change_cipher_spec m) in
  mret cke.
Definition ph_keys (m : mode) (cli_random pre_master_secret : bytes) (sh : server_hello) : M client (bytes * bytes) :=
  do* master_secret := mlift (prf_bytes m pre_master_secret (s_master_secret ++ cli_random ++ sh_random sh) 48) in
  do* prf := mlift (prf_new m master_secret (s_key_expansion ++ sh_random sh ++ cli_random)) in
  do* (write_key, prf) := mlift (get_bytes m (Z.to_nat KEY_LEN) prf) in
  do* _ := on_writer (w_set_encryptor (new_encryptor m write_key)) in
  do* (read_key, prf) := mlift (get_bytes m (Z.to_nat KEY_LEN) prf) in
  do* (write_iv, prf) := mlift (get_bytes m 12 prf) in
  do* (read_iv, prf) := mlift (get_bytes m 12 prf) in
  do* _ := on_writer (w_set_iv write_iv) in
  do* _ := on_reader (r_set_iv read_iv) in
  mret (master_secret, read_key).
Definition ph_finished (m : mode) (master_secret : bytes) (ch : handshake) (sh : server_hello) (certs : list bytes)
    (skx : bytes) (cke : handshake) : M client (bytes * handshake) :=
  do* msgs := mlift (transcript ch sh certs skx cke) in
  do* verify_hash := mlift (sha256 m msgs) in
  do* client_verify_data := mlift (prf_bytes m master_secret (s_client_finished ++ verify_hash) verify_data_len) in
  do* fin := mlift (new_finished client_verify_data) in
  do* _ := on_writer (write_handshake m fin) in
  mret (msgs, fin).
Definition ph_accept (m : mode) (master_secret read_key msgs : bytes) (fin : handshake) : M client unit :=
  do* _ := on_reader (read_change_cipher_spec m) in
  do* _ := on_reader (r_set_decryptor (new_decryptor m read_key)) in
  do* server_finished := expect m pick_finished in
  do* fin_bytes := mlift (tls_write i_handshake fin) in
  do* verify_hash := mlift (sha256 m (msgs ++ fin_bytes)) in
  do* server_verify_data := mlift (prf_bytes m master_secret (s_server_finished ++ verify_hash) verify_data_len) in
  do* verify_ok := mlift (crypto_compare m server_finished server_verify_data) in
  if verify_ok then mret tt else mfail (Err DecryptError).

Lemma mbind_assoc {S A B C} (x : M S A) (f : A -> M S B) (g : B -> M S C) s :
  mbind (mbind x f) g s = mbind x (fun a => mbind (f a) g) s.
Proof. unfold mbind. destruct (x s) as [[] s']; reflexivity. Qed.
Lemma mbind_ext {S A B} (x : M S A) (f g : A -> M S B) s : (forall a s', f a s' = g a s') -> mbind x f s = mbind x g s.
Proof. intros H. unfold mbind. destruct (x s) as [[] s']; auto. Qed.
Lemma mbind_ret {S A B} (a : A) (f : A -> M S B) s : mbind (mret a) f s = f a s.
Proof. reflexivity. Qed.

Lemma phases m c : client_handshake m c =
  (do* (cli_random, ch) := ph_hello m in
   do* (sh, certs, skx, pub, pms) := ph_server m in
   do* cke := ph_exchange m pub in
   do* (ms, read_key) := ph_keys m cli_random pms sh in
   do* (msgs, fin) := ph_finished m ms ch sh certs skx cke in
   ph_accept m ms read_key msgs fin) c.
Proof.
  unfold client_handshake, ph_hello, ph_server, ph_exchange, ph_keys, ph_finished, ph_accept.
  repeat first [ rewrite mbind_ret; cbv beta iota | rewrite mbind_assoc; apply mbind_ext; intros ? ? | apply mbind_ext; intros ? ?
               | match goal with p : (_ * _)%type |- _ => destruct p end; cbv beta iota ].
  all: try reflexivity.
Qed.

(** ** Messages *)
Lemma sp_vec_len n b : zlen (sp_vec n b) = Z.of_nat n + zlen b.
Proof. unfold sp_vec. rewrite zlen_app. unfold zlen at 1. rewrite be_length. reflexivity. Qed.
Lemma e_handshake_len h : zlen (e_handshake h) = 4 + zlen (e_hs_body h).
Proof. unfold e_handshake. rewrite zlen_app, sp_vec_len. change (zlen [z2b (hs_type h)]) with 1. lia. Qed.
Lemma offer_body cr : length cr = 32%nat -> zlen (e_hs_body (offer cr)) = 65.
Proof.
  intros L. cbn [e_hs_body offer]. unfold e_client_hello. cbn [ch_version ch_random ch_session ch_suites ch_comps ch_exts].
  rewrite !zlen_app. assert (zlen cr = 32) as -> by (unfold zlen; rewrite L; reflexivity). reflexivity.
Qed.
Lemma wf_offer cr : length cr = 32%nat -> wf_handshake (offer cr).
Proof.
  intros L. split; [|rewrite offer_body by exact L; reflexivity]. cbn [wf_hs_body offer]. unfold wf_client_hello.
  cbn [ch_version ch_random ch_session ch_suites ch_comps ch_exts]. split; [exact L|]. split; [discriminate|].
  split; [split; [constructor; [discriminate|constructor]|split; discriminate]|]. split; [split; discriminate|].
  split; [|discriminate]. repeat constructor; discriminate.
Qed.
Lemma make_offer cr : make_client_hello cr = Ok (offer cr).
Proof. reflexivity. Qed.

Lemma write_handshake_eq m h w : wf_handshake h -> write_handshake m h w = write_data m HandshakeTy (e_handshake h) w.
Proof. intros W. unfold write_handshake, mbind, mlift. change (tls_write i_handshake h) with (hs_write h). rewrite hs_write_enc by exact W. reflexivity. Qed.
Lemma handshake_legal h : wf_handshake h -> zlen (e_hs_body h) <= 16380 -> legal_fragment (e_handshake h).
Proof. intros _ H. unfold legal_fragment. rewrite e_handshake_len. pose proof (zlen_nonneg (e_hs_body h)). lia. Qed.

(** ** Phase 1 *)
Lemma hello_run m r w g b : w_enc w = None -> w_count w = 0 ->
  ((length g < 32)%nat /\ ph_hello m (Client r w g b) = (Panic, Client r w g b)) \/
  ((32 <= length g)%nat /\ exists x w', sent w (flight_hello (firstn 32 g)) 1 x w' /\
    ph_hello m (Client r w g b) =
    (match x with Ok _ => Ok (firstn 32 g, offer (firstn 32 g)) | Err k => Err k | Panic => Panic | Diverge => Diverge end,
     Client r w' (skipn 32 g) b)).
Proof.
  intros E C. unfold ph_hello, mbind, on_rng, rng_fill, mlift, on_writer, mret. cbn [c_rng c_reader c_writer c_buf].
  destruct (Nat.ltb_spec (length g) 32) as [L|L]; [left; auto|right]. split; [exact L|].
  assert (Lc : length (firstn 32 g) = 32%nat) by (rewrite firstn_length; lia).
  set (cr := firstn 32 g) in *.
  assert (HA : array_new 32 cr = Ok cr) by (unfold array_new; rewrite Lc; reflexivity).
  rewrite HA, make_offer. cbn [c_rng c_reader c_writer c_buf]. rewrite write_handshake_eq by (apply wf_offer; exact Lc).
  destruct (write_one_clear m HandshakeTy (e_handshake (offer cr)) w) as (x & w' & -> & S); try (assumption || lia).
  - apply handshake_legal; [apply wf_offer; exact Lc|rewrite offer_body by exact Lc; lia].
  - exists x, w'. split; [exact S|]. destruct (sent_outcome _ _ _ _ _ S) as [-> | ->]; reflexivity.
Qed.

(** ** Phase 2 *)
Definition as_fail {A B} (x : res A) : res B :=
  match x with Ok _ => Diverge | Err k => Err k | Panic => Panic | Diverge => Diverge end.
Lemma expect_run {A} m (pick : handshake -> option A) r w g b : expect m pick (Client r w g b) =
  match read_handshake m r with
  | (Ok h, r') => (match pick h with Some a => Ok a | None => Err UnexpectedMessage end, Client r' w g b)
  | (x, r') => (as_fail x, Client r' w g b)
  end.
Proof.
  unfold expect, mbind, on_reader. cbn [c_reader c_writer c_rng c_buf]. destruct (read_handshake m r) as [[h| | |] r']; try reflexivity.
  destruct (pick h); reflexivity.
Qed.
(** the readers keep the keys *)
Lemma read_message_keys m r x r' : read_message m r = (x, r') -> r_dec r' = r_dec r /\ r_iv r' = r_iv r.
Proof. intros E. destruct (read_message_absorbs m r) as (recs & A & _). rewrite E in A. eapply absorbs_dec. exact A. Qed.
Lemma read_handshake_keys m r x r' : read_handshake m r = (x, r') -> r_dec r' = r_dec r /\ r_iv r' = r_iv r.
Proof.
  unfold read_handshake, mbind. destruct (read_message m r) as [y r1] eqn:E. apply read_message_keys in E.
  destruct y as [[]| | |]; intros H; inversion H; subst; exact E.
Qed.
Lemma read_ccs_keys m r x r' : read_change_cipher_spec m r = (x, r') -> r_dec r' = r_dec r /\ r_iv r' = r_iv r.
Proof.
  unfold read_change_cipher_spec, mbind. destruct (read_message m r) as [y r1] eqn:E. apply read_message_keys in E.
  destruct y as [[]| | |]; intros H; inversion H; subst; exact E.
Qed.
Definition failed {A} (x : res A) : Prop := match x with Ok _ | Diverge => False | _ => True end.
Lemma server_cases m r w g b : terminates (r_dec r) ->
  (exists sh certs skx pub pms r' g', ph_server m (Client r w g b) = (Ok (sh, certs, skx, pub, pms), Client r' w g' b) /\
     server_flight m r sh certs skx r' /\ check_server_hello sh = Ok tt /\ compute_keys m skx g = (Ok (pub, pms), g')) \/
  (exists x r' g', ph_server m (Client r w g b) = (x, Client r' w g' b) /\ failed x).
Proof.
  destruct (ph_server m (Client r w g b)) as [out c'] eqn:E.
  Local Ltac dead E := right; apply pair_equal_spec in E; destruct E as [<- <-]; eexists _, _, _; split; [reflexivity|exact I].
  intros T. unfold ph_server in E. unfold mbind at 1 in E. rewrite expect_run in E.
  pose proof (read_handshake_halts m r T) as T1.
  destruct (read_handshake m r) as [[h| | |] r1] eqn:E1; [|dead E|dead E|destruct T1].
  assert (T' : terminates (r_dec r1)) by (apply read_handshake_keys in E1 as [-> _]; exact T). clear T T1. rename T' into T.
  destruct (pick_server_hello h) as [sh|] eqn:P1; [|dead E].
  unfold mbind at 1, mlift in E. 
  assert (T1 : halts (check_server_hello sh)) by (unfold check_server_hello; repeat (destruct (negb _); [exact I|]); exact I).
  destruct (check_server_hello sh) as [[]| | |] eqn:Ck; [|dead E|dead E|destruct T1]. clear T1.
  unfold mbind at 1 in E. rewrite expect_run in E.
  pose proof (read_handshake_halts m r1 T) as T1.
  destruct (read_handshake m r1) as [[h2| | |] r2] eqn:E2; [|dead E|dead E|destruct T1].
  assert (T' : terminates (r_dec r2)) by (apply read_handshake_keys in E2 as [-> _]; exact T). clear T T1. rename T' into T.
  destruct (pick_certificate h2) as [certs|] eqn:P2; [|dead E].
  unfold mbind at 1 in E. rewrite expect_run in E.
  pose proof (read_handshake_halts m r2 T) as T1.
  destruct (read_handshake m r2) as [[h3| | |] r3] eqn:E3; [|dead E|dead E|destruct T1].
  assert (T' : terminates (r_dec r3)) by (apply read_handshake_keys in E3 as [-> _]; exact T). clear T T1. rename T' into T.
  destruct (pick_server_key_exchange h3) as [skx|] eqn:P3; [|dead E].
  unfold mbind at 1, on_rng in E. cbn [c_reader c_writer c_rng c_buf] in E.
  pose proof (compute_keys_cases m skx g) as T1.
  destruct (compute_keys m skx g) as [[[pub pms]| | |] g'] eqn:K; [|dead E|dead E|destruct T1]. clear T1.
  unfold mbind at 1 in E. rewrite expect_run in E.
  pose proof (read_handshake_halts m r3 T) as T1.
  destruct (read_handshake m r3) as [[h4| | |] r4] eqn:E4; [|dead E|dead E|destruct T1].
  assert (T' : terminates (r_dec r4)) by (apply read_handshake_keys in E4 as [-> _]; exact T). clear T T1. rename T' into T.
  destruct (pick_server_hello_done h4) as [[]|] eqn:P4; [|dead E].
  apply pair_equal_spec in E. destruct E as [<- <-].
  left. exists sh, certs, skx, pub, pms, r4, g'. split; [reflexivity|]. split; [|auto]. exists r1, r2, r3.
  destruct h; try discriminate P1. injection P1 as ->. destruct h2; try discriminate P2. injection P2 as ->.
  destruct h3; try discriminate P3. injection P3 as ->. destruct h4; try discriminate P4. auto.
Qed.

(** ** What the messages a reader delivers look like *)
Lemma pull_body m : forall r h r', pull m r = (Ok (HandshakeMessage h), r') ->
  exists body, zlen body < 2 ^ 24 /\ hs_read_ty (hs_type h) body = Ok (h, []).
Proof.
  intros r. induction r as [r IH] using (pull_ind m). intros h r'. rewrite pull_eq. unfold mbind.
  destruct (read_record m r) as [[rec|k| |] r1] eqn:E; try discriminate.
  destruct (handle_record rec r1) as [[[msg|]|k| |] r2] eqn:F; try discriminate.
  - intros H. apply pair_equal_spec in H as [H _]. apply Ok_inj in H. subst msg. unfold handle_record in F. destruct (rc_type rec).
    + destruct (rc_fragment rec) as [|b [|]]; try destruct (b2z b =? 1); discriminate.
    + destruct (rc_fragment rec) as [|l [|d ?]];
        [| |destruct (from_code alert_level_code alert_level_all (b2z l)), (from_code alert_desc_code alert_desc_all (b2z d))]; discriminate.
    + destruct (rc_fragment rec) as [|b f]; [discriminate|].
      unfold mbind, r_add_record, r_get_message, mret in F. cbn [r_buf] in F.
      destruct (get_message (add_record (r_buf r1) (b :: f))) as [[[h'|]| | |] b'] eqn:G; try discriminate.
      cbn [option_map] in F. apply pair_equal_spec in F as [F _]. apply Ok_inj in F. injection F as ->.
      apply get_message_inv in G as (body & L & _ & R). eauto.
    + discriminate.
  - intros H. eapply IH; eauto.
Qed.
Lemma read_handshake_body m r h r' : read_handshake m r = (Ok h, r') ->
  exists body, zlen body < 2 ^ 24 /\ hs_read_ty (hs_type h) body = Ok (h, []).
Proof.
  unfold read_handshake, mbind. destruct (read_message m r) as [[[h'| |a|d]| | |] r1] eqn:E; try discriminate.
  intros H. inversion H; subst. rewrite read_message_eq in E.
  destruct (get_message (r_buf r)) as [[[h'|]| | |] b'] eqn:G; try discriminate.
  - inversion E; subst. apply get_message_inv in G as (body & L & _ & R). eauto.
  - eapply pull_body; eauto.
Qed.
Lemma read_handshake_wf m r h r' : read_handshake m r = (Ok h, r') ->
  match h with
  | client_hello_msg _ => True
  | server_hello_msg sh => wf_server_hello' sh /\ (wf_suite (sh_suite sh) -> wf_handshake h)
  | _ => wf_handshake h
  end.
Proof.
  intros E. apply read_handshake_body in E as (body & L & R). apply hs_read_ty_inv in R as (_ & R).
  destruct h; try exact I; try (destruct R as [W ->]; split; assumption).
  destruct R as [W R]. split; [exact W|]. intros S. destruct (R S) as (junk & -> & _). split; [split; assumption|].
  cbn [e_hs_body]. rewrite zlen_app in L. pose proof (zlen_nonneg junk). lia.
Qed.

Lemma beqb_spec a b : reflect (a = b) (beqb a b).
Proof. apply iff_reflect. symmetry. apply beqb_eq. Qed.
Lemma check_inv sh : check_server_hello sh = Ok tt <->
  sh_version sh = Version x03 x03 /\ sh_suite sh = TLS_ECDHE_RSA_WITH_CHACHA20_POLY1305_SHA256 /\ sh_comp sh = CM_null.
Proof.
  unfold check_server_hello, tls_version. cbn [fst snd]. destruct (sh_version sh) as [a b]. cbn [v_major v_minor].
  destruct (beqb_spec a x03) as [->|N]; [|split; [discriminate|intros (H & _); congruence]].
  destruct (beqb_spec b x03) as [->|N]; [|split; [discriminate|intros (H & _); congruence]].
  cbn [andb negb]. destruct (sh_suite sh); cbn [suite_eqb negb]; [|split; [discriminate|intros (_ & H & _); congruence]].
  destruct (sh_comp sh); cbn [comp_eqb negb]; [|split; [discriminate|intros (_ & _ & H); congruence]]. tauto.
Qed.

(** ** Phase 3 *)
Lemma cke_wf pub : length pub = 66%nat -> wf_handshake (client_key_exchange pub) /\ legal_fragment (e_handshake (client_key_exchange pub)).
Proof.
  intros L. assert (Z : zlen (e_hs_body (client_key_exchange pub)) = 66) by (cbn [e_hs_body]; unfold zlen; rewrite L; reflexivity).
  assert (W : wf_handshake (client_key_exchange pub)) by (split; [exact I|rewrite Z; reflexivity]).
  split; [exact W|]. apply handshake_legal; [exact W|rewrite Z; lia].
Qed.
Lemma exchange_run m r w g b s : length (s_cke s) = 66%nat -> w_enc w = None -> 0 <= w_count w -> w_count w + 2 < 2 ^ 64 ->
  exists x w', sent w (flight_exchange s) 2 x w' /\
    ph_exchange m (s_cke s) (Client r w g b) =
    (match x with Ok _ => Ok (client_key_exchange (s_cke s)) | Err k => Err k | Panic => Panic | Diverge => Diverge end, Client r w' g b).
Proof.
  intros L E C C'. destruct (cke_wf _ L) as [W Lg]. unfold ph_exchange, mbind, mlift, new_client_key_exchange, on_writer.
  cbn [c_rng c_reader c_writer c_buf]. rewrite write_handshake_eq by exact W.
  destruct (write_one_clear m HandshakeTy _ w Lg E C) as (x & w1 & -> & S); [lia|].
  destruct (sent_outcome _ _ _ _ _ S) as [-> | ->].
  - cbn [c_rng c_reader c_writer c_buf]. unfold write_change_cipher_spec. pose proof S as (_ & A & _ & _ & D). specialize (D eq_refl).
    destruct (write_one_clear m ChangeCipherSpecTy [x01] w1) as (x & w2 & -> & S2); [split; cbn; lia|congruence|lia|lia|].
    exists x, w2. split; [apply (sent_seq _ _ _ _ _ _ _ _ _ S eq_refl S2)|].
    destruct (sent_outcome _ _ _ _ _ S2) as [-> | ->]; reflexivity.
  - exists (Err IoFailure), w1. split; [eapply sent_cut; [exact S|discriminate]|reflexivity].
Qed.

(** ** Phase 4 *)
Definition keyed_writer (m : mode) (w : writer) (K : keys) : writer :=
  Writer (w_out w) (w_plan w) (Some (new_encryptor m (k_client K))) 0 (Some (iv_client K)) (w_log w).
Lemma keys_run m r w g b s : length (s_cr s) = 32%nat -> length (sh_random (s_sh s)) = 32%nat -> length (s_pms s) = 32%nat ->
  w_enc w = None -> w_iv w = None -> r_iv r = None ->
  ph_keys m (s_cr s) (s_pms s) (s_sh s) (Client r w g b) =
  (Ok (s_master s, k_server (s_keys s)), Client (ived_reader r (s_keys s)) (keyed_writer m w (s_keys s)) g b).
Proof.
  intros Lc Ls Lp E I RI. unfold ph_keys. unfold mbind at 1, mlift at 1.
  change s_master_secret with (ascii "master secret"). change s_key_expansion with (ascii "key expansion").
  rewrite prf_bytes_spec; [|lia|rewrite !zlen_app; unfold zlen; rewrite Lc, Ls; reflexivity].
  change (PRF (s_pms s) "master secret" (s_cr s ++ sh_random (s_sh s)) 48) with (s_master s).
  assert (Lm : length (s_master s) = 48%nat) by apply PRF_length.
  assert (Lm' : (length (s_master s) <= 64)%nat) by lia.
  set (seed := sh_random (s_sh s) ++ s_cr s).
  assert (Hs : zlen (ascii "key expansion" ++ seed) + 96 < 2 ^ 61) by (unfold seed; rewrite !zlen_app; unfold zlen; rewrite Lc, Ls; reflexivity).
  destruct (prf_new_at (s_master s) (ascii "key expansion" ++ seed) ltac:(lia) Hs m) as (p & Ep & H0).
  unfold mbind at 1, mlift at 1. rewrite Ep.
  destruct (get_bytes_at _ _ Lm' Hs m 0 (Z.to_nat KEY_LEN) p H0) as (p1 & E1 & H1). cbn [Nat.add] in H1.
  unfold mbind at 1, mlift at 1. rewrite E1. unfold mbind at 1, on_writer at 1, w_set_encryptor. cbn [c_rng c_reader c_writer c_buf]. rewrite E.
  destruct (get_bytes_at _ _ Lm' Hs m _ (Z.to_nat KEY_LEN) p1 H1) as (p2 & E2 & H2). unfold mbind at 1, mlift at 1. rewrite E2.
  destruct (get_bytes_at _ _ Lm' Hs m _ 12 p2 H2) as (p3 & E3 & H3). unfold mbind at 1, mlift at 1. rewrite E3.
  destruct (get_bytes_at _ _ Lm' Hs m _ 12 p3 H3) as (p4 & E4 & H4). unfold mbind at 1, mlift at 1. rewrite E4.
  unfold mbind at 1, on_writer at 1, w_set_iv. cbn [c_rng c_reader c_writer c_buf w_iv]. rewrite I.
  unfold mbind at 1, on_reader at 1, r_set_iv. cbn [c_rng c_reader c_writer c_buf]. rewrite RI.
  unfold mret, ived_reader, keyed_writer, s_keys, key_block. cbv zeta. cbn [k_client k_server iv_client iv_server w_out w_plan w_enc w_count w_log].
  fold seed. rewrite PRF_pslice. change (Z.to_nat KEY_LEN) with 32%nat in *. cbn [Nat.add].
  rewrite !skipn_pslice, !firstn_pslice by lia. reflexivity.
Qed.

(** ** Phase 5 *)
Definition good_session (s : session) : Prop :=
  length (s_cr s) = 32%nat /\ length (sh_random (s_sh s)) = 32%nat /\ length (s_pms s) = 32%nat /\ length (s_cke s) = 66%nat /\
  Forall wf_handshake (s_msgs s).
Lemma msgs_bound hs : Forall wf_handshake hs -> zlen (concat (map e_handshake hs)) <= zlen hs * (2 ^ 24 + 4).
Proof.
  induction 1 as [|h hs [_ L] _ IH]; [reflexivity|]. cbn [map concat]. rewrite zlen_app, zlen_cons, e_handshake_len. lia.
Qed.
Lemma tls_write_hs h : wf_handshake h -> tls_write i_handshake h = Ok (e_handshake h).
Proof. exact (hs_write_enc h). Qed.
Lemma transcript_run s : good_session s ->
  transcript (offer (s_cr s)) (s_sh s) (s_certs s) (s_ske s) (client_key_exchange (s_cke s)) = Ok (concat (map e_handshake (s_msgs s))).
Proof.
  intros (_ & _ & _ & _ & F). unfold s_msgs in *. unfold transcript.
  repeat match goal with H : Forall _ (_ :: _) |- _ => inversion H; clear H; subst end.
  rewrite !tls_write_hs by assumption. cbn [rbind map concat]. rewrite !app_nil_r. reflexivity.
Qed.
Lemma fin_wf ms l hs : wf_handshake (finished (verify_data ms l hs)) /\ zlen (e_handshake (finished (verify_data ms l hs))) = 16 /\
  legal_fragment (e_handshake (finished (verify_data ms l hs))).
Proof.
  assert (Z : zlen (e_hs_body (finished (verify_data ms l hs))) = 12) by (cbn [e_hs_body]; unfold zlen; rewrite verify_data_length; reflexivity).
  assert (W : wf_handshake (finished (verify_data ms l hs))) by (split; [apply verify_data_length|rewrite Z; reflexivity]).
  split; [exact W|]. split; [rewrite e_handshake_len, Z; reflexivity|]. apply handshake_legal; [exact W|rewrite Z; lia].
Qed.
Lemma verify_run m ms l hs : (length ms <= 64)%nat -> zlen (concat (map e_handshake hs)) < 2 ^ 60 -> zlen (ascii l) <= 20 ->
  (let* h := sha256 m (concat (map e_handshake hs)) in prf_bytes m ms (ascii l ++ h) verify_data_len) = Ok (verify_data ms l hs).
Proof.
  intros Lm Hm Hl. rewrite sha256_spec by lia. cbn [rbind]. apply prf_bytes_spec; [exact Lm|].
  rewrite zlen_app. unfold zlen at 2. rewrite SHA256_length. lia.
Qed.
Lemma master_length s : length (s_master s) = 48%nat.
Proof. apply PRF_length. Qed.
Lemma session_bound s : good_session s -> zlen (concat (map e_handshake (s_msgs s))) < 2 ^ 30.
Proof. intros (_ & _ & _ & _ & F). apply msgs_bound in F. change (zlen (s_msgs s)) with 6 in F. lia. Qed.
Lemma finished_run m r w g b s : good_session s ->
  w_enc w = Some (new_encryptor m (k_client (s_keys s))) -> w_iv w = Some (iv_client (s_keys s)) -> w_count w = 0 ->
  exists x w', sent w (flight_finished s) 1 x w' /\
    ph_finished m (s_master s) (offer (s_cr s)) (s_sh s) (s_certs s) (s_ske s) (client_key_exchange (s_cke s)) (Client r w g b) =
    (match x with Ok _ => Ok (concat (map e_handshake (s_msgs s)), s_client_fin s) | Err k => Err k | Panic => Panic | Diverge => Diverge end,
     Client r w' g b).
Proof.
  intros G E I C. unfold ph_finished. unfold mbind at 1, mlift at 1. rewrite transcript_run by exact G.
  pose proof (session_bound s G) as Hb. set (msgs := concat (map e_handshake (s_msgs s))) in *.
  pose proof (verify_run m (s_master s) "client finished" (s_msgs s)) as V. rewrite master_length in V. fold msgs in V.
  specialize (V ltac:(lia) ltac:(lia) ltac:(cbn; lia)).
  unfold mbind at 1, mlift at 1. destruct (sha256 m msgs) as [h| | |]; try discriminate V. cbn [rbind] in V.
  unfold mbind at 1, mlift at 1. change s_client_finished with (ascii "client finished"). rewrite V.
  destruct (fin_wf (s_master s) "client finished" (s_msgs s)) as (W & L16 & Lg).
  assert (N : new_finished (verify_data (s_master s) "client finished" (s_msgs s)) = Ok (s_client_fin s)).
  { unfold new_finished, array_new. rewrite verify_data_length. reflexivity. }
  unfold mbind at 1, mlift at 1. rewrite N. unfold mbind at 1, on_writer. cbn [c_rng c_reader c_writer c_buf].
  rewrite write_handshake_eq by exact W.
  destruct (key_block_lengths (s_master s) (s_cr s) (sh_random (s_sh s))) as (K1 & _ & K3 & _).
  destruct (write_one_sealed m HandshakeTy (e_handshake (s_client_fin s)) w _ _ Lg K1 K3 E I) as (x & w' & -> & S); [lia|lia|].
  exists x, w'. rewrite C in S. split; [exact S|]. destruct (sent_outcome _ _ _ _ _ S) as [-> | ->]; reflexivity.
Qed.

(** ** Phase 6 *)
Lemma accept_cases m r w g b s : good_session s -> r_dec r = None ->
  let out := ph_accept m (s_master s) (k_server (s_keys s)) (concat (map e_handshake (s_msgs s))) (s_client_fin s) (Client r w g b) in
  (exists r', server_answer m r (s_keys s) (expected_server s) r' /\ out = (Ok tt, Client r' w g b)) \/
  (exists v r', server_answer m r (s_keys s) v r' /\ v <> expected_server s /\ out = (Err DecryptError, Client r' w g b)) \/
  (exists x r', out = (x, Client r' w g b) /\ failed x /\ forall v r2, ~ server_answer m r (s_keys s) v r2).
Proof.
  intros G D out. destruct out as [x c'] eqn:E. unfold out in E. clear out.
  unfold ph_accept in E. unfold mbind at 1, on_reader at 1 in E. cbn [c_rng c_reader c_writer c_buf] in E.
  Local Ltac dead2 E := right; right; apply pair_equal_spec in E; destruct E as [<- <-]; eexists _, _; split; [reflexivity|split; [exact I|]];
    intros v0 r0 (ra & A1 & A2); congruence.
  assert (T : terminates (r_dec r)) by (rewrite D; exact I). pose proof (read_ccs_halts m r T) as T1.
  destruct (read_change_cipher_spec m r) as [[[]| | |] r1] eqn:R1; [|dead2 E|dead2 E|destruct T1]. clear T T1.
  unfold mbind at 1, on_reader at 1, r_set_decryptor in E. cbn [c_rng c_reader c_writer c_buf] in E.
  destruct (read_ccs_keys _ _ _ _ R1) as [D1 _]. rewrite D1, D in E.
  change (Reader (r_src r1) _ 0 (r_buf r1) (r_iv r1)) with (decrypting m r1 (s_keys s)) in E.
  unfold mbind at 1 in E. rewrite expect_run in E.
  Local Ltac dead3 E R1 := right; right; apply pair_equal_spec in E; destruct E as [<- <-]; eexists _, _; split; [reflexivity|split; [exact I|]];
    intros v0 r0 (ra & A1 & A2); rewrite R1 in A1; apply pair_equal_spec in A1 as [_ <-]; congruence.
  pose proof (read_handshake_halts m (decrypting m r1 (s_keys s)) (decryptor_terminates _ _)) as T1.
  destruct (read_handshake m (decrypting m r1 (s_keys s))) as [[h| | |] r2] eqn:R2; [|dead3 E R1|dead3 E R1|destruct T1]. clear T1.
  destruct (pick_finished h) as [v|] eqn:P.
  2:{ right; right; apply pair_equal_spec in E; destruct E as [<- <-]; eexists _, _; split; [reflexivity|split; [exact I|]].
      intros v0 r0 (ra & A1 & A2). rewrite R1 in A1. apply pair_equal_spec in A1 as [_ <-]. rewrite R2 in A2. inversion A2; subst. discriminate. }
  destruct h; try discriminate P. injection P as ->.
  pose proof (read_handshake_wf _ _ _ _ R2) as [Lv _]. cbn [wf_hs_body] in Lv.
  destruct (fin_wf (s_master s) "client finished" (s_msgs s)) as (W & L16 & Lg).
  unfold mbind at 1, mlift at 1 in E. fold (s_client_fin s) in W. rewrite tls_write_hs in E by exact W.
  pose proof (session_bound s G) as Hb.
  pose proof (verify_run m (s_master s) "server finished" (s_msgs s ++ [s_client_fin s])) as V. rewrite master_length in V.
  rewrite map_app, concat_app in V. cbn [map concat] in V. rewrite app_nil_r, zlen_app in V.
  specialize (V ltac:(lia)). fold (s_client_fin s) in L16. rewrite L16 in V. specialize (V ltac:(lia) ltac:(cbn; lia)).
  set (msgs := concat (map e_handshake (s_msgs s))) in *.
  unfold mbind at 1, mlift at 1 in E. destruct (sha256 m (msgs ++ e_handshake (s_client_fin s))) as [h| | |]; try discriminate V. cbn [rbind] in V.
  unfold mbind at 1, mlift at 1 in E. change s_server_finished with (ascii "server finished") in E. rewrite V in E. fold (expected_server s) in *.
  destruct (compare_decides m v (expected_server s)) as (o & Eo & Ho); [rewrite Lv; symmetry; apply verify_data_length|].
  unfold mbind at 1, mlift at 1 in E. rewrite Eo in E.
  destruct o; cbv [mret mfail] in E; apply pair_equal_spec in E; destruct E as [<- <-].
  - left. exists r2. replace v with (expected_server s) in R2 by (symmetry; apply Ho; reflexivity). split; [exists r1; auto|reflexivity].
  - right. left. exists v, r2. split; [exists r1; auto|]. split; [intros X; apply Ho in X; discriminate|reflexivity].
Qed.
