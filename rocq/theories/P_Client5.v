(** Proofs about src/client.rs: the statements of Prop_Client.v that combine the results of the other files. *)
From Verif Require Import Spec_Client P_Util P_Codec P_RecordW P_RecordR P_Record P_Record2 P_Aead P_Prf P_Fp P_Points NT_Order P_P256X P_Scalar P_Ecdhe P_Halt P_Client P_Client2 P_App P_App2 P_App3 P_Client3 P_Client4 P_Panic P_Ops.
From Coq Require Import ZifyBool ZifyNat ZifyN.
Import String.StringSyntax.
Local Open Scope string_scope.
Local Open Scope list_scope.
Local Open Scope Z_scope.
#[local] Opaque SHA256 HMAC aead_seal aead_decrypt aead_encrypt compute_keys PRF nmul.

(** ** The state of a connected client *)
Lemma left_all r : left r = zlen (all_bytes (r_src r)).
Proof. unfold left, zlen. rewrite size_all. reflexivity. Qed.
Lemma connected m s p g c : client_new m s p g = (Ok tt, c) -> exists ss, reached m s g (Complete ss) /\ answered m s ss (c_reader c) /\
  w_out (c_writer c) = stage_out (Complete ss) /\ keyed_w m (c_writer c) (k_client (s_keys ss)) (iv_client (s_keys ss)) 1 /\
  (healthy (writer_new p) -> healthy (c_writer c)) /\ c_buf c = [] /\
  r_dec (c_reader c) = Some (new_decryptor m (k_server (s_keys ss))) /\
  (zlen (all_bytes s) + 1 < 2 ^ 64 -> exists k, keyed m (c_reader c) (k_server (s_keys ss)) (iv_server (s_keys ss)) k /\
     k + zlen (all_bytes (r_src (c_reader c))) <= zlen (all_bytes s)).
Proof.
  intros E. apply client_new_cases in E. inversion E as [ss c0 RC An Rd Bf| | | | |]; subst. exists ss. split; [exact RC|]. split; [exact An|].
  destruct (key_block_lengths (s_master ss) (s_cr ss) (sh_random (s_sh ss))) as (K1 & K2 & K3 & K4). fold (s_keys ss) in K1, K2, K3, K4.
  destruct Rd as (O & H & R1 & R2 & R3). split; [exact O|]. split; [repeat split; auto; lia|]. split; [exact H|]. split; [exact Bf|].
  destruct An as (r4 & Fl & r5 & CC & FN). pose proof Fl as (r1 & r2 & r3 & F1 & F2 & F3 & F4).
  destruct (read_ccs_keys _ _ _ _ CC) as [_ V]. cbn [ived_reader r_iv] in V.
  destruct (read_handshake_keys _ _ _ _ FN) as [D' V']. cbn [decrypting r_dec r_iv] in D', V'. split; [exact D'|].
  intros Room. rewrite <- !left_all.
  assert (R0 : roomy (reader_new s)).
  { unfold roomy. rewrite left_all. cbn [reader_new r_dec r_count r_src]. split; [reflexivity|]. lia. }
  destruct (roomy_next _ _ _ _ R0 F1) as [Q1 L1], (roomy_next _ _ _ _ Q1 F2) as [Q2 L2], (roomy_next _ _ _ _ Q2 F3) as [Q3 L3], (roomy_next _ _ _ _ Q3 F4) as [Q4 L4].
  destruct Q4 as (_ & Q5 & Q6). destruct (read_ccs_room _ _ _ _ CC) as (L5 & _); [exact Q5|change (left (ived_reader r4 (s_keys ss))) with (left r4); cbn [ived_reader r_count]; lia|].
  pose proof (later_left _ _ L1). pose proof (later_left _ _ L2). pose proof (later_left _ _ L3). pose proof (later_left _ _ L4). pose proof (later_left _ _ L5) as L5'.
  change (left (ived_reader r4 (s_keys ss))) with (left r4) in L5'. assert (L0 : left (reader_new s) = zlen (all_bytes s)) by apply left_all.
  destruct (read_handshake_room _ _ _ _ FN) as (_ & C1 & C2); [cbn [decrypting r_count]; lia|change (left (decrypting m r5 (s_keys ss))) with (left r5); cbn [decrypting r_count]; lia|].
  change (left (decrypting m r5 (s_keys ss))) with (left r5) in C2. cbn [decrypting r_count] in C1, C2.
  exists (r_count (c_reader c)). split; [|rewrite left_all in C2 |- *; change (all_bytes (r_src (reader_new s))) with (all_bytes s) in *; rewrite <- !left_all in *; lia].
  repeat split; auto. congruence.
Qed.

(** ** C30: no call runs forever *)
Lemma new_halts m s p g : halts (fst (client_new m s p g)).
Proof. destruct (client_new m s p g) as [x c] eqn:E. apply client_new_cases in E. inversion E; exact I. Qed.
Lemma reads_halt m : forall sizes c d, r_dec (c_reader c) = Some d -> terminates (Some d) -> Forall halts (fst (client_reads m sizes c)).
Proof.
  induction sizes as [|n sizes IH]; intros c d D T; [constructor|]. cbn [client_reads].
  pose proof (client_read_halts m n c) as H. rewrite D in H. specialize (H T). destruct (client_read m n c) as [x c1] eqn:E. cbn [fst] in H.
  assert (D1 : r_dec (c_reader c1) = Some d).
  { apply read_rd in E. clear - E D. induction E; cbn [with_buf c_reader] in *; auto.
    - apply IHE. match goal with H : read_application_data _ _ = _ |- _ => apply read_app_keys in H as [-> _] end. exact D.
    - match goal with H : read_application_data _ _ = _ |- _ => apply read_app_keys in H as [-> _] end. exact D.
    - match goal with H : read_application_data _ _ = _ |- _ => apply read_app_keys in H as [-> _] end. exact D.
    - match goal with H : read_application_data _ _ = _ |- _ => apply read_app_keys in H as [-> _] end. exact D. }
  specialize (IH c1 d D1 T). destruct (client_reads m sizes c1) as [xs c2]. destruct x; try destruct H; cbn [fst] in *; repeat constructor; auto.
Qed.
Lemma connected_reads_halt m s p g c sizes : client_new m s p g = (Ok tt, c) -> Forall halts (fst (client_reads m sizes c)).
Proof. intros E. apply connected in E as (ss & _ & _ & _ & _ & _ & _ & D & _). eapply reads_halt; [exact D|apply decryptor_terminates]. Qed.

(** ** C31 *)
Lemma negotiated m s p g c : client_new m s p g = (Ok tt, c) -> exists ss r, 
  server_flight m (reader_new s) (s_sh ss) (s_certs ss) (s_ske ss) r /\
  server_answer m (ived_reader r (s_keys ss)) (s_keys ss) (expected_server ss) (c_reader c) /\
  s_cr ss = firstn 32 g /\
  sh_version (s_sh ss) = Version x03 x03 /\ sh_suite (s_sh ss) = TLS_ECDHE_RSA_WITH_CHACHA20_POLY1305_SHA256 /\ sh_comp (s_sh ss) = CM_null /\
  exists k rest N g', tls_read i_ske (s_ske ss) = Ok (k, rest) /\ from_uncompressed_bytes m (ske_public k) = Ok (Some N) /\
    compute_keys m (s_ske ss) (skipn 32 g) = (Ok (s_cke ss, s_pms ss), g').
Proof.
  intros E. apply connected in E as (ss & (L & Cr & _ & V & S & C & g' & K) & (r & A1 & A2) & _). exists ss, r.
  pose proof (compute_keys_cases m (s_ske ss) (skipn 32 g)) as CK. rewrite K in CK. destruct CK as (_ & _ & k & rest & N & K1 & K2).
  do 6 (split; [assumption|]). exists k, rest, N, g'. auto.
Qed.

(** ** C33, C34 *)
Lemma emissions m s p g x c : client_new m s p g = (x, c) -> exists st, reached m s g st /\
  (w_out (c_writer c) = stage_out st /\ (x = Ok tt -> exists ss, st = Complete ss) \/
   (exists k, x = Err k /\ w_out (c_writer c) = stage_out st ++ alert_out st k) \/
   (x = Err IoFailure /\ cut p (stage_out st) (w_out (c_writer c))) \/
   (exists k sent, x = Err IoFailure /\ w_out (c_writer c) = stage_out st ++ sent /\ cut p (alert_out st k) sent)).
Proof.
  intros E. apply client_new_cases in E. inversion E; subst.
  - exists (Complete ss). split; [assumption|]. left. split; [match goal with H : ready _ _ _ _ |- _ => apply H end|]. eauto.
  - exists st. split; [assumption|]. right. right. left. auto.
  - exists st. split; [assumption|]. left. split; [assumption|discriminate].
  - exists st. split; [assumption|]. right. left. eauto.
  - exists st. split; [assumption|]. right. right. right. eauto 6.
  - exists st. split; [assumption|]. left. split; [assumption|discriminate].
Qed.
Lemma alert_sent m s p g k c : client_new m s p g = (Err k, c) -> k <> IoFailure ->
  exists st, reached m s g st /\ stopped m s g st /\ w_out (c_writer c) = stage_out st ++ alert_out st k.
Proof. intros E N. apply client_new_cases in E. inversion E; subst; try congruence. eauto. Qed.
Lemma transport_silent m s p g c : client_new m s p g = (Err IoFailure, c) -> healthy (writer_new p) ->
  exists st, reached m s g st /\ stopped m s g st /\ w_out (c_writer c) = stage_out st.
Proof.
  intros E H. apply client_new_cases in E. inversion E; subst; try congruence; eauto.
  all: match goal with H : cut _ _ _ |- _ => destruct H as [H _]; contradiction end.
Qed.

(** ** C50: HMAC keys *)
Lemma hmac_keys m s g ss : reached m s g (Complete ss) ->
  length (s_pms ss) = 32%nat /\ length (s_master ss) = 48%nat /\
  forall key msg, key = s_pms ss \/ key = s_master ss -> zlen msg + 64 < 2 ^ 61 -> exists t, hmac_sha256 m key msg = Ok t.
Proof.
  intros R. apply session_good in R as (_ & _ & L & _). pose proof (master_length ss) as L'. split; [exact L|]. split; [exact L'|].
  intros key msg Hk Hm. exists (HMAC key msg). apply hmac_spec; [|exact Hm]. destruct Hk as [-> | ->]; lia.
Qed.

(** ** C51, C52: panics *)
Lemma new_panics' m s p g c : zlen (all_bytes s) + 1 < 2 ^ 64 -> client_new m s p g = (Panic, c) ->
  (length g < 32)%nat \/ ~ enough_randomness (skipn 32 g) \/
  (m = Debug /\ exists skx k rest, exchanged m s skx /\ tls_read i_ske skx = Ok (k, rest) /\ from_uncompressed_bytes Debug (ske_public k) = Panic) \/
  (exists ss k t b, reached m s g (Complete ss) /\ 0 <= k /\
     sealed_in s (k_server (s_keys ss)) (iv_server (s_keys ss)) k t b /\ 16384 < zlen b).
Proof.
  intros Room E. destruct (new_panics m s p g c Room E) as [H|[(skx & g' & X & K)|H]]; [auto| |auto].
  pose proof (compute_keys_cases m skx (skipn 32 g)) as C. rewrite K in C. destruct C as [C|(-> & k & rest & C)]; [auto|]. right. right. left.
  split; [reflexivity|]. exists skx, k, rest. auto.
Qed.
Lemma connected_reads_safe m s p g c sizes : zlen (all_bytes s) + 1 < 2 ^ 64 -> client_new m s p g = (Ok tt, c) -> no_pending (c_reader c) ->
  exists ss, reached m s g (Complete ss) /\
    (alien (r_src (c_reader c)) (k_server (s_keys ss)) (iv_server (s_keys ss)) 0 \/ Forall fine (fst (client_reads m sizes c))).
Proof.
  intros Room E N. apply connected in E as (ss & R & _ & _ & _ & _ & _ & _ & K). exists ss. split; [exact R|].
  destruct (K Room) as (k & Kd & Lk). destruct (reads_safe m _ _ sizes c k Kd N) as [A|F]; [rewrite left_all; lia| |right; exact F].
  left. destruct A as (k' & t & b & H & A). exists k', t, b. split; [|exact A]. destruct Kd as (_ & _ & _ & _ & _ & K0). lia.
Qed.

(** ** C54 *)
Lemma connected_emit m s p g c l as_ c' : client_new m s p g = (Ok tt, c) -> 1 + cost l < 2 ^ 64 -> calls m l c = (as_, c') ->
  (healthy (writer_new p) -> Forall2 good_answer l as_) /\
  (Forall2 good_answer l as_ -> exists ss it, reached m s g (Complete ss) /\ renders l it /\
     w_out (c_writer c') = stage_out (Complete ss) ++ sealed_items (k_client (s_keys ss)) (iv_client (s_keys ss)) 1 it).
Proof.
  intros E K Q. apply connected in E as (ss & R & _ & O & W & H & _). destruct (calls_emit m _ _ l c 1 as_ c' W K Q) as [C1 C2]. split; [auto|].
  intros F. destruct (C2 F) as (it & J1 & _ & J3 & _). exists ss, it. rewrite <- O. auto.
Qed.

(** ** C56: a completed handshake with a public key off the curve *)
Definition off_ske : ske := Ske secp256r1 (enc off_x off_y) (DigSigned (SigHash H_sha256 S_rsa) []).
Lemma off_ske_wf : wf_ske off_ske.
Proof. split; vm_compute; intuition discriminate. Qed.
Lemma session_run m g ss : good_session ss -> (32 <= length g)%nat -> s_cr ss = firstn 32 g ->
  check_server_hello (s_sh ss) = Ok tt -> (exists g', compute_keys m (s_ske ss) (skipn 32 g) = (Ok (s_cke ss, s_pms ss), g')) ->
  exists s c, client_new m s [] g = (Ok tt, c) /\ reached m s g (Complete ss).
Proof.
  intros G L Cr Ck K.
  set (bs := concat (map e_handshake [server_hello_msg (s_sh ss); certificate (s_certs ss); server_key_exchange (s_ske ss); server_hello_done])).
  destruct (fragments_legal bs) as (E1 & L1 & _). set (fs1 := chunks (Z.to_nat RECORD_MAX_LEN) bs) in *.
  destruct (fin_wf (s_master ss) "server finished" (s_msgs ss ++ [s_client_fin ss])) as (_ & _ & L2). change (finished _) with (s_server_fin ss) in L2.
  set (fs2 := [e_handshake (s_server_fin ss)]).
  destruct (session_connects m g ss (source (served ss fs1 fs2 ++ [])) [] fs1 fs2 [] G L Cr Ck K (conj L1 E1)) as (c & H1 & H2 & _).
  - split; [constructor; [exact L2|constructor]|]. cbn [concat fs2]. apply app_nil_r.
  - apply source_stream.
  - constructor.
  - eauto.
Qed.
Lemma off_curve_connects : exists s g c ss k rest N, client_new Release s [] g = (Ok tt, c) /\ reached Release s g (Complete ss) /\
  tls_read i_ske (s_ske ss) = Ok (k, rest) /\ from_uncompressed_bytes Release (ske_public k) = Ok (Some N) /\ ~ oncurve (Aff (fv (nx N)) (fv (ny N))).
Proof.
  destruct off_curve_accepted as (N & D & O & _). pose proof (read_ske_enc off_ske off_ske_wf) as R.
  assert (K : exists pub pms g', compute_keys Release (e_ske off_ske) (skipn 32 one_tape) = (Ok (pub, pms), g')).
  { pose proof (compute_keys_cases Release (e_ske off_ske) (skipn 32 one_tape)) as C.
    destruct (compute_keys Release (e_ske off_ske) (skipn 32 one_tape)) as [[[pub pms]|k| |] g']; [eauto| | |destruct C].
    - exfalso. destruct C as (_ & [C|(_ & k' & rest & C1 & C2)]); [rewrite R in C; discriminate C|]. rewrite R in C1. apply Ok_inj, pair_equal_spec in C1 as [<- _].
      change (ske_public off_ske) with (enc off_x off_y) in C2. rewrite D in C2. discriminate C2.
    - exfalso. destruct C as [C|[C _]]; [|discriminate C]. apply C. exists 0%nat. exact one_accepted. }
  destruct K as (pub & pms & g' & K). destruct (keys_lengths _ _ _ _ _ _ K) as (Lp & Lk & _).
  set (ss := Session (firstn 32 one_tape) (sv_hello plain_server) [] (e_ske off_ske) pub pms).
  assert (G : good_session ss).
  { pose proof plain_wf as (W1 & W2 & _ & _). split; [reflexivity|]. split; [apply W1|]. split; [exact Lp|]. split; [exact Lk|].
    unfold s_msgs. cbn [s_cr s_sh s_certs s_ske s_cke ss]. constructor; [apply wf_offer; reflexivity|].
    constructor; [split; [exact W1|vm_compute; reflexivity]|]. constructor; [exact W2|]. constructor; [split; [exact I|vm_compute; reflexivity]|].
    constructor; [split; [exact I|vm_compute; reflexivity]|]. constructor; [apply cke_wf; exact Lk|constructor]. }
  destruct (session_run Release one_tape ss G ltac:(cbn; lia) eq_refl eq_refl (ex_intro _ g' K)) as (s & c & E & Rc).
  exists s, one_tape, c, ss, off_ske, [], N. auto.
Qed.
Lemma debug_key_on_curve s p g c : client_new Debug s p g = (Ok tt, c) -> exists ss k rest N,
  reached Debug s g (Complete ss) /\ tls_read i_ske (s_ske ss) = Ok (k, rest) /\ from_uncompressed_bytes Debug (ske_public k) = Ok (Some N) /\
  oncurve (Aff (fv (nx N)) (fv (ny N))).
Proof.
  intros E. pose proof (connected _ _ _ _ _ E) as (ss & R & _). pose proof R as (_ & _ & _ & _ & _ & _ & g' & K).
  pose proof (compute_keys_cases Debug (s_ske ss) (skipn 32 g)) as CK. rewrite K in CK. destruct CK as (_ & _ & k & rest & N & K1 & K2).
  exists ss, k, rest, N. split; [exact R|]. split; [exact K1|]. split; [exact K2|]. apply decode_debug_on_curve with (1 := K2).
Qed.
(** ** C57: any certificate list and any signature go through *)
Lemma unverified m certs sg : wf_handshake (certificate certs) -> wf_digitally_signed sg -> exists s g c ss k rest,
  client_new m s [] g = (Ok tt, c) /\ reached m s g (Complete ss) /\ s_certs ss = certs /\
  tls_read i_ske (s_ske ss) = Ok (k, rest) /\ ske_signed k = sg.
Proof.
  intros W1 W2. set (sv := Server (repeat x00 32) [] None certs secp256r1 1 sg).
  assert (W : wf_server sv). { pose proof plain_wf as (V1 & _ & V3 & _). split; [exact V1|]. split; [exact W1|]. split; [exact V3|exact W2]. }
  destruct (conforming_run m sv (fun _ => []) W) as (s & ss & c & _ & A & E & R & _). exists s, one_tape, c, ss.
  destruct A as (sx & sy & cx & cy & zx & zy & _ & _ & _ & ->). 
  exists (Ske secp256r1 (sec1 sx sy) sg), []. split; [exact E|]. split; [exact R|]. split; [reflexivity|]. split; [|reflexivity].
  apply read_ske_enc. apply (wf_public sv). exact W2.
Qed.
(** ** C32: a whole handshake with another curve name *)
Lemma other_curve_connects m cv : exists s g c ss k rest, client_new m s [] g = (Ok tt, c) /\ reached m s g (Complete ss) /\
  tls_read i_ske (s_ske ss) = Ok (k, rest) /\ ske_curve k = cv.
Proof.
  set (sv := Server (repeat x00 32) [] None [] cv 1 (DigSigned (SigHash H_sha256 S_rsa) [])).
  assert (W : wf_server sv) by exact plain_wf.
  destruct (conforming_run m sv (fun _ => []) W) as (s & ss & c & _ & A & E & R & _). exists s, one_tape, c, ss.
  destruct A as (sx & sy & cx & cy & zx & zy & _ & _ & _ & ->). 
  exists (Ske cv (sec1 sx sy) (sv_sig sv)), []. split; [exact E|]. split; [exact R|]. split; [|reflexivity].
  apply read_ske_enc. apply (wf_public sv). apply W.
Qed.
(** ** C25: from the first byte of the handshake to the last byte of application data *)
Lemma end_to_end m sv g j ss s p fs1 fs2 data rest sizes : wf_server sv -> (32 <= length g)%nat -> first_accepted (skipn 32 g) j ->
  used_scalar (draw (skipn 32 g) j) <> 0 ->
  agreed sv (firstn 32 g) (nmul (Z.to_nat (used_scalar (draw (skipn 32 g) j))) Gpt) ss ->
  first_flight ss fs1 -> second_flight ss fs2 -> healthy (writer_new p) ->
  Forall (fun f => zlen f <= 16384) data -> zlen fs2 + zlen data < 2 ^ 64 ->
  stream s = served ss fs1 fs2 ++ sealed_stream (k_server (s_keys ss)) (iv_server (s_keys ss)) (zlen fs2) ApplicationDataTy data ++ rest ->
  (list_sum sizes <= length (concat data))%nat ->
  exists c outs c' more, client_new m s p g = (Ok tt, c) /\ client_reads m sizes c = (map Ok outs, c') /\
    map (@length byte) outs = sizes /\ concat outs ++ more = concat data.
Proof.
  intros W Lg F Nz A F1 F2 H Ld Lk S Sz.
  destruct (honest_connects m sv g j ss s p fs1 fs2 _ W Lg F Nz A F1 F2 S H) as (c & E & _ & _ & K & _ & _ & B & Bc & St).
  destruct (serves m (k_server (s_keys ss)) (iv_server (s_keys ss)) rest sizes c (zlen fs2) data) as (outs & c' & k' & fs' & R & M & Q & _).
  - split; [exact K|]. split; [exact St|]. split; [exact Ld|]. split; [exact Lk|]. apply no_pending_nil. exact B.
  - rewrite Bc. exact Sz.
  - rewrite Bc in Q. exists c, outs, c', (c_buf c' ++ concat fs'). auto.
Qed.
Lemma last_read m c key iv k fs n : serving m c key iv k fs [] -> (length (c_buf c ++ concat fs) < n)%nat ->
  exists c', client_read m n c = (Ok (c_buf c ++ concat fs), c') /\ c_buf c' = [].
Proof.
  intros S L. destruct (client_read m n c) as [x c'] eqn:E. apply read_rd in E.
  destruct (rd_drains m key iv n [] c x c' E k fs S) as [-> B]; [cbn [length]; lia|]. eauto.
Qed.
Lemma conserved m sizes c : Forall fine (fst (client_reads m sizes c)) -> exists n,
  let ins := fst (reads (read_application_data m) n (c_reader c)) in
  Forall fine ins /\ c_reader (snd (client_reads m sizes c)) = snd (reads (read_application_data m) n (c_reader c)) /\
  c_buf c ++ concat (oks ins) = concat (oks (fst (client_reads m sizes c))) ++ c_buf (snd (client_reads m sizes c)).
Proof.
  intros F. destruct (reads_conserve m sizes c) as (n & lost & R & Q & L). cbv zeta in *. destruct (L F) as [-> Fi]. exists n. auto.
Qed.

(** ** C35: instances of the two ways it fails *)
Lemma plain_key : nmul (Z.to_nat (sv_secret plain_server)) Gpt = Gpt.
Proof. change (Z.to_nat (sv_secret plain_server)) with 1%nat. rewrite (nmul_S 0) by lia. apply eadd_inf_r. Qed.
Lemma zero_scalar_refuted m : exists sv s g ss, wf_server sv /\ clean s /\ (32 <= length g)%nat /\ enough_randomness (skipn 32 g) /\
  (exists fs, first_flight ss fs /\ stream s = concat (map (e_record HandshakeTy) fs)) /\
  s_sh ss = sv_hello sv /\ s_certs ss = sv_certs sv /\
  (exists sx sy, nmul (Z.to_nat (sv_secret sv)) Gpt = Aff sx sy /\ s_ske ss = e_ske (Ske (sv_curve sv) (sec1 sx sy) (sv_sig sv))) /\
  reached m s g (Complete ss) /\ s_cke ss = x41 :: sec1 f0 f0 /\ ~ oncurve (Aff f0 f0).
Proof.
  pose proof plain_key as PK. unfold Gpt at 2 in PK.
  match type of PK with _ = Aff ?x ?y => set (sx := x) in *; set (sy := y) in * end.
  set (g := repeat x00 64). assert (FA : first_accepted (skipn 32 g) 0) by (split; [cbn; lia|]; split; [vm_compute; reflexivity|]; intros j Hj; lia).
  set (ss := Session (firstn 32 g) (sv_hello plain_server) (sv_certs plain_server) (e_ske (Ske (sv_curve plain_server) (sec1 sx sy) (sv_sig plain_server))) (x41 :: enc 0 0) (be 32 0)).
  set (bs := concat (map e_handshake [server_hello_msg (s_sh ss); certificate (s_certs ss); server_key_exchange (s_ske ss); server_hello_done])).
  destruct (fragments_legal bs) as (E1 & L1 & _). set (fs1 := chunks (Z.to_nat RECORD_MAX_LEN) bs) in *.
  exists plain_server, (source (concat (map (e_record HandshakeTy) fs1))), g, ss. split; [exact plain_wf|]. split; [apply source_clean|].
  split; [cbn; lia|]. split; [exists 0%nat; exact FA|]. split; [exists fs1; split; [split; [exact L1|exact E1]|apply source_stream]|].
  split; [reflexivity|]. split; [reflexivity|]. split; [exists sx, sy; split; [exact PK|reflexivity]|].
  split; [|split; [cbn [s_cke ss]; rewrite sec1_enc; reflexivity|exact origin_off_curve]].
  eapply (zero_scalar m plain_server g 0 sx sy _ fs1 []); [exact plain_wf|cbn; lia|exact FA|vm_compute; reflexivity|exact PK|split; [exact L1|exact E1]|].
  rewrite app_nil_r. apply source_stream.
Qed.
Lemma request_refuted m : exists sv cq s g c, wf_server sv /\ wf_handshake (certificate_request cq) /\ clean s /\ (32 <= length g)%nat /\ enough_randomness (skipn 32 g) /\
  (exists sx sy fs, nmul (Z.to_nat (sv_secret sv)) Gpt = Aff sx sy /\ Forall legal_fragment fs /\
     concat fs = concat (map e_handshake [server_hello_msg (sv_hello sv); certificate (sv_certs sv);
       server_key_exchange (e_ske (Ske (sv_curve sv) (sec1 sx sy) (sv_sig sv))); certificate_request cq; server_hello_done]) /\
     stream s = concat (map (e_record HandshakeTy) fs)) /\
  client_new m s [] g = (Err UnexpectedMessage, c).
Proof.
  pose proof plain_key as PK. unfold Gpt at 2 in PK.
  match type of PK with _ = Aff ?x ?y => set (sx := x) in *; set (sy := y) in * end.
  set (cq := CertRequest [CT_rsa_sign] [SigHash H_sha256 S_rsa] []).
  assert (Wq : wf_handshake (certificate_request cq)).
  { split; [split; [cbv; intuition discriminate|]; split; [cbv; intuition discriminate|]; split; [constructor|cbv; discriminate]|vm_compute; reflexivity]. }
  set (bs := concat (map e_handshake [server_hello_msg (sv_hello plain_server); certificate (sv_certs plain_server);
       server_key_exchange (e_ske (Ske (sv_curve plain_server) (sec1 sx sy) (sv_sig plain_server))); certificate_request cq; server_hello_done])).
  destruct (fragments_legal bs) as (E1 & L1 & _). set (fs1 := chunks (Z.to_nat RECORD_MAX_LEN) bs) in *.
  assert (St : stream (source (concat (map (e_record HandshakeTy) fs1))) = concat (map (e_record HandshakeTy) fs1) ++ []) by (rewrite app_nil_r; apply source_stream).
  destruct (certificate_request_refused m plain_server cq (source (concat (map (e_record HandshakeTy) fs1))) [] one_tape 0 sx sy fs1 []
    plain_wf Wq ltac:(constructor) ltac:(cbn; lia) one_accepted PK L1 E1 St) as (c & E & _).
  exists plain_server, cq, (source (concat (map (e_record HandshakeTy) fs1))), one_tape, c. split; [exact plain_wf|]. split; [exact Wq|]. split; [apply source_clean|].
  split; [cbn; lia|]. split; [exists 0%nat; exact one_accepted|]. split; [|exact E].
  exists sx, sy, fs1. split; [exact PK|]. split; [exact L1|]. split; [exact E1|apply source_stream].
Qed.
(** ** Concrete cases *)
Lemma ready_to_write m s p g c : client_new m s p g = (Ok tt, c) -> exists ss, reached m s g (Complete ss) /\
  keyed_w m (c_writer c) (k_client (s_keys ss)) (iv_client (s_keys ss)) 1 /\ (healthy (writer_new p) -> healthy (c_writer c)).
Proof. intros E. apply connected in E as (ss & R & _ & _ & W & H & _). eauto. Qed.
Lemma serving_example m : exists c key iv, serving m c key iv 1 [[x61; x62]; []; [x63]] [].
Proof.
  destruct (plain_run m (fun ss => sealed_stream (k_server (s_keys ss)) (iv_server (s_keys ss)) 1 ApplicationDataTy [[x61; x62]; []; [x63]])) as (s & g & ss & c & _ & _ & K & B & _ & St).
  exists c, (k_server (s_keys ss)), (iv_server (s_keys ss)). split; [exact K|]. split; [rewrite app_nil_r; exact St|].
  split; [repeat constructor; cbv; discriminate|]. split; [reflexivity|]. apply no_pending_nil. exact B.
Qed.
Lemma crashing_example key iv : crashing key iv 1 (sealed_record key iv 1 AlertTy [x02; x14]) /\
  crashing key iv 1 (sealed_record key iv 1 HandshakeTy (e_handshake hello_request)).
Proof.
  split; [left; exists AL_fatal, AD_bad_record_mac; split; [discriminate|reflexivity]|].
  right. right. left. exists hello_request. split; [split; [exact I|reflexivity]|]. split; [split; cbv; discriminate|reflexivity].
Qed.
Lemma truncated_refuted m : exists s g c, clean s /\ stream s = e_record HandshakeTy [x02; x00; x00; x01; x03] /\
  client_new m s [] g = (Err IoFailure, c) /\ w_out (c_writer c) = flight_hello (firstn 32 g).
Proof.
  destruct (truncated_silent m) as (c & E & O). exists truncated, one_tape, c. split; [repeat constructor; eauto|]. split; [reflexivity|]. auto.
Qed.
