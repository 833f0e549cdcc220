(** C101: what an observer sees of the client's records. *)
From Verif Require Import Spec_Shape P_Util P_Codec P_CodecProps P_RecordW P_RecordR P_Record P_Aead P_Ecdhe P_Client P_Client4 P_App2 P_Accept P_Build P_Life P_Broken P_Talk3 P_Any P_Pending.
From Coq Require Import ZifyBool ZifyNat ZifyN.
Local Open Scope list_scope.
Local Open Scope Z_scope.
#[local] Opaque SHA256 HMAC aead_seal aead_decrypt aead_encrypt compute_keys PRF nmul.

Lemma headers_app a la : headers a la -> forall b lb, headers b lb -> headers (a ++ b) (la ++ lb).
Proof. induction 1 as [|t f bs l L _ IH]; intros b lb H; [exact H|]. rewrite <- app_assoc. cbn [app]. constructor; [exact L|]. apply IH. exact H. Qed.
Lemma headers_e t (f : bytes) n : zlen f = n -> n <= 18432 -> headers (e_record t f) [(t, n)].
Proof. intros <- L. rewrite <- (app_nil_r (e_record t f)). apply Hd_record; [exact L|constructor]. Qed.
Lemma headers_sealed key iv k t (f : bytes) : zlen f <= 16384 -> headers (sealed_record key iv k t f) [(t, zlen f + 16)].
Proof. intros L. apply headers_e; [apply sealed_len|lia]. Qed.
Lemma wire_inj t (f bs : bytes) t' f' bs' : zlen f <= 18432 -> zlen f' <= 18432 -> wire t x03 x03 f ++ bs = wire t' x03 x03 f' ++ bs' -> t = t' /\ f = f' /\ bs = bs'.
Proof.
  intros L L' X. pose proof (zlen_nonneg f). pose proof (zlen_nonneg f'). unfold wire in X. rewrite <- !app_assoc in X. cbn [app] in X.
  remember (be 2 (zlen f)) as h eqn:Eh. remember (be 2 (zlen f')) as h' eqn:Eh'. injection X as Et X. subst h h'.
  assert (t = t') as -> by (destruct t, t'; (reflexivity || discriminate)). split; [reflexivity|].
  assert (E2 : be 2 (zlen f) = be 2 (zlen f')).
  { assert (K : forall h r : bytes, length h = 2%nat -> firstn 2 (h ++ r) = h) by (intros h r Lh; rewrite firstn_app, Lh, Nat.sub_diag, firstn_all2 by lia; cbn [firstn]; apply app_nil_r).
    pose proof (f_equal (firstn 2) X) as Y. rewrite !K in Y by apply be_length. exact Y. }
  rewrite E2 in X. apply app_inv_head in X.
  assert (Ez : zlen f = zlen f') by (apply (f_equal be_val) in E2; rewrite !be_val_be, !Z.mod_small in E2 by (change (256 ^ Z.of_nat 2) with 65536; lia); exact E2).
  assert (En : length f = length f') by (unfold zlen in Ez; lia).
  pose proof (f_equal (firstn (length f)) X) as A. pose proof (f_equal (skipn (length f)) X) as B.
  rewrite En in A at 2. rewrite En in B at 2. rewrite !firstn_app, !Nat.sub_diag, !firstn_all, !app_nil_r in A. rewrite !skipn_app, !Nat.sub_diag, !skipn_all in B. auto.
Qed.
Lemma headers_inv bs l : headers bs l -> (bs = [] /\ l = []) \/ exists t f bs' l', zlen f <= 18432 /\ headers bs' l' /\ bs = wire t x03 x03 f ++ bs' /\ l = (t, zlen f) :: l'.
Proof. intros [|t f bs' l' L H]; [left; auto|right]. exists t, f, bs', l'. auto. Qed.
Lemma headers_one bs l : headers bs l -> forall l', headers bs l' -> l' = l.
Proof.
  induction 1 as [|t f bs l L _ IH]; intros l' H; destruct (headers_inv _ _ H) as [(E & ->)|(t' & f' & bs' & l1 & L' & H' & E & ->)].
  - reflexivity.
  - discriminate.
  - discriminate.
  - apply wire_inj in E as (<- & <- & <-); [|assumption..]. f_equal. apply IH. exact H'.
Qed.

(** ** Data *)
Lemma cuts_last n : 1 <= n <= 16384 -> cuts n = [n].
Proof. intros L. unfold cuts. destruct (n <=? 0) eqn:E; [lia|]. rewrite Z.div_small, Z.mod_small by lia. cbn [Z.to_nat repeat app]. f_equal. lia. Qed.
Lemma cuts_more n : 1 <= n -> cuts (16384 + n) = 16384 :: cuts n.
Proof.
  intros L. unfold cuts. destruct (16384 + n <=? 0) eqn:E; [lia|]. destruct (n <=? 0) eqn:E'; [lia|].
  replace (16384 + n - 1) with (n - 1 + 1 * 16384) by lia. rewrite Z.div_add, Z.mod_add by lia.
  assert (0 <= (n - 1) / 16384) by (apply Z.div_pos; lia). rewrite Z2Nat.inj_add by lia. rewrite Nat.add_comm. reflexivity.
Qed.
Lemma parcels_cuts d fs : parcels d fs -> map zlen fs = cuts (zlen d).
Proof.
  induction 1 as [|d L|f d fs L N _ IH].
  - reflexivity.
  - rewrite cuts_last by exact L. reflexivity.
  - rewrite zlen_app, L, cuts_more; [|destruct d; [congruence|rewrite zlen_cons; pose proof (zlen_nonneg d); lia]]. cbn [map]. rewrite L, IH. reflexivity.
Qed.
Lemma parcels_bound d fs : parcels d fs -> Forall (fun f : bytes => zlen f <= 16384) fs.
Proof. induction 1; repeat constructor; (lia || assumption). Qed.
Lemma cuts_sum n : 0 <= n -> fold_right Z.add 0 (cuts n) = n.
Proof.
  intros L. unfold cuts. destruct (n <=? 0) eqn:E; [cbn; lia|]. assert (Q : 0 <= (n - 1) / 16384) by (apply Z.div_pos; lia).
  assert (R : forall k t, fold_right Z.add 0 (repeat 16384 k ++ [t]) = 16384 * Z.of_nat k + t) by (induction k as [|k IH]; intros t; [cbn; lia|cbn [repeat app fold_right]; rewrite IH; lia]).
  rewrite R, Z2Nat.id by exact Q. pose proof (Z.div_mod (n - 1) 16384). lia.
Qed.
Lemma headers_stream key iv t fs : Forall (fun f : bytes => zlen f <= 16384) fs -> forall k, headers (sealed_stream key iv k t fs) (map (fun n => (t, n + 16)) (map zlen fs)).
Proof.
  induction 1 as [|f fs L _ IH]; intros k; [constructor|]. cbn [sealed_stream map]. change ((t, zlen f + 16) :: ?r) with ([(t, zlen f + 16)] ++ r).
  apply headers_app; [apply headers_sealed; exact L|apply IH].
Qed.

(** ** Handshake *)
Lemma headers_hello cr : length cr = 32%nat -> headers (flight_hello cr) [(HandshakeTy, 69)].
Proof.
  intros L. apply headers_e; [|lia]. unfold zlen. rewrite message_length. cbn [e_hs_body offer]. unfold e_client_hello, sp_vec.
  cbn [ch_version ch_random ch_session ch_suites ch_comps ch_exts]. rewrite !app_length, L, !be_length. reflexivity.
Qed.
Lemma cr_length (g : rng) : (32 <= length g)%nat -> length (firstn 32 g) = 32%nat.
Proof. intros L. rewrite firstn_length. lia. Qed.
Lemma headers_complete m g ss g' : (32 <= length g)%nat -> s_cr ss = firstn 32 g -> compute_keys m (s_ske ss) (skipn 32 g) = (Ok (s_cke ss, s_pms ss), g') ->
  headers (stage_out (Complete ss)) opening.
Proof.
  intros L E K. destruct (keys_lengths _ _ _ _ _ _ K) as (_ & Lk & _). cbn [stage_out]. rewrite E. unfold opening.
  change (?a :: ?r) with ([a] ++ r). apply headers_app; [apply headers_hello, cr_length, L|]. unfold flight_exchange. rewrite <- app_assoc.
  change (?a :: ?r) with ([a] ++ r). apply headers_app; [apply headers_e; [|lia]; unfold zlen; rewrite message_length; cbn [e_hs_body]; rewrite Lk; reflexivity|].
  change (?a :: ?r) with ([a] ++ r). apply headers_app; [apply headers_e; [reflexivity|lia]|].
  assert (Z : zlen (e_handshake (s_client_fin ss)) = 16) by (unfold zlen; rewrite message_length; unfold s_client_fin; cbn [e_hs_body]; rewrite verify_data_length; reflexivity).
  change 32 with (16 + 16). rewrite <- Z at 1. apply headers_sealed. lia.
Qed.

(** ** Sessions *)
Lemma career_headers ks ivs kc ivc q buf k pend bs j l out : career ks ivs kc ivc q buf k pend bs j l out -> headers out (use_shape q l).
Proof.
  induction 1 as [| n next buf k pend bs j d buf' k' pend' bs' l out _ _ IH | n next buf k pend bs j buf' k' pend' bs' _ | d next buf k pend bs j fs l out P _ IH | next buf k pend bs j l out _ IH].
  - constructor.
  - exact IH.
  - cbn [use_shape call_shape app]. destruct (next (Got Panic)); constructor.
  - cbn [use_shape call_shape]. apply headers_app; [|exact IH]. rewrite <- (parcels_cuts _ _ P). apply headers_stream. exact (parcels_bound _ _ P).
  - cbn [use_shape call_shape]. apply headers_app; [|exact IH]. apply (headers_sealed kc ivc j AlertTy [x02; x00]). discriminate.
Qed.
Lemma led_headers m g q bs l out : lifespan m g q bs (Ok tt) l out -> headers out (opening ++ use_shape q l).
Proof.
  intros H. inversion H as [b more x st N _|ss b more n extra rest l1 out1 ((Lg & Ec & _ & _ & _ & g' & K) & _) C]; subst; [congruence|].
  apply headers_app; [eapply headers_complete; [exact Lg|exact Ec|exact K]|eapply career_headers; exact C].
Qed.
Lemma passes_headers m g bs ss pend rest : passes m g bs ss pend rest -> headers (stage_out (Complete ss)) opening.
Proof. intros (Lg & Ec & p3 & b3 & g' & _ & K & _). eapply headers_complete; [exact Lg|exact Ec|exact K]. Qed.
Lemma stage_headers m g bs x st : building m g bs x st ->
  (st = Nothing /\ x = Panic) \/ (exists cr, st = Hello cr /\ headers (stage_out st) [(HandshakeTy, 69)]) \/ (exists ss, st = Complete ss /\ headers (stage_out st) opening).
Proof.
  destruct 1 as [L|y L _|ss ? ? ? ? ? ? P _ _|ss ? ? ? ? ? ? ? ? ? P _ _ _|ss ? ? ? ? ? ? ? ? P _ _ _|ss ? ? ? ? ? ? ? P _ _].
  - left. auto.
  - right. left. exists (firstn 32 g). split; [reflexivity|]. apply headers_hello, cr_length, L.
  - right. right. exists ss. split; [reflexivity|]. eapply passes_headers. exact P.
  - right. right. exists ss. split; [reflexivity|]. eapply passes_headers. exact P.
  - right. right. exists ss. split; [reflexivity|]. eapply passes_headers. exact P.
  - right. right. exists ss. split; [reflexivity|]. eapply passes_headers. exact P.
Qed.
Lemma signal_headers st e : (forall n, (match st with Complete _ => 18 | _ => 2 end) = n -> headers (signal st e) (match e with IoFailure => [] | _ => [(AlertTy, n)] end)).
Proof.
  intros n <-. destruct e; cbn [signal]; try constructor; destruct st; cbn [alert_out];
    first [apply headers_e; [reflexivity|discriminate] | match goal with |- headers (sealed_record ?a ?b ?c ?d ?f) _ => apply (headers_sealed a b c d f); discriminate end].
Qed.
Lemma refused_headers m g q bs x l out : lifespan m g q bs x l out -> x <> Ok tt ->
  l = [] /\ exists h, headers out h /\ In h [[]; [(HandshakeTy, 69)]; [(HandshakeTy, 69); (AlertTy, 2)]; opening; opening ++ [(AlertTy, 18)]].
Proof.
  intros H N. inversion H as [b more x1 st _ B|]; subst; [|congruence]. split; [reflexivity|]. unfold all_sent.
  destruct (stage_headers _ _ _ _ _ B) as [(-> & ->)|[(cr & -> & S0)|(ss & -> & S0)]].
  - exists []. split; [constructor|left; reflexivity].
  - exists ([(HandshakeTy, 69)] ++ match x with Err e => match e with IoFailure => [] | _ => [(AlertTy, 2)] end | _ => [] end).
    split; [apply headers_app; [exact S0|destruct x as [|e| |]; try constructor; apply signal_headers; reflexivity]|].
    destruct x as [|e| |]; [right; left; reflexivity| |right; left; reflexivity..]. destruct e; solve [right; left; reflexivity|right; right; left; reflexivity].
  - exists (opening ++ match x with Err e => match e with IoFailure => [] | _ => [(AlertTy, 18)] end | _ => [] end).
    split; [apply headers_app; [exact S0|destruct x as [|e| |]; try constructor; apply signal_headers; reflexivity]|].
    destruct x as [|e| |]; [right; right; right; left; reflexivity| |right; right; right; left; reflexivity..]. destruct e; solve [right; right; right; left; reflexivity|right; right; right; right; left; reflexivity].
Qed.
Theorem session_headers m q s p g l c : healthy (writer_new p) -> zlen (concat (stretches s)) + 1 < 2 ^ 64 -> 1 + spent q l < 2 ^ 64 ->
  sitting m q s p g = (Ok tt, l, c) -> headers (w_out (c_writer c)) (opening ++ use_shape q l).
Proof. intros H R Sp E. eapply led_headers. apply (lifespan_iff m q s p g); [exact H|exact R|exact Sp|]. exists c. auto. Qed.
Theorem session_refused m q s p g x l c : healthy (writer_new p) -> zlen (concat (stretches s)) + 1 < 2 ^ 64 -> 
  sitting m q s p g = (x, l, c) -> x <> Ok tt ->
  l = [] /\ exists h, headers (w_out (c_writer c)) h /\ In h [[]; [(HandshakeTy, 69)]; [(HandshakeTy, 69); (AlertTy, 2)]; opening; opening ++ [(AlertTy, 18)]].
Proof.
  intros H R E N. assert (l = []) as ->. { clear - E N. unfold sitting in E. destruct (client_new m s p g) as [[[]|e| |] c0]; try (injection E; intros; congruence). destruct (use m q c0). injection E. intros. congruence. }
  eapply refused_headers; [|exact N]. apply (lifespan_iff m q s p g); [exact H|exact R|destruct q; cbn [spent]; reflexivity|]. exists c. eauto.
Qed.
Theorem sessions_alike m q s p g l c m' q' s' p' g' l' c' : healthy (writer_new p) -> zlen (concat (stretches s)) + 1 < 2 ^ 64 -> 1 + spent q l < 2 ^ 64 ->
  healthy (writer_new p') -> zlen (concat (stretches s')) + 1 < 2 ^ 64 -> 1 + spent q' l' < 2 ^ 64 ->
  sitting m q s p g = (Ok tt, l, c) -> sitting m' q' s' p' g' = (Ok tt, l', c') ->
  (use_shape q l = use_shape q' l' <-> exists h, headers (w_out (c_writer c)) h /\ headers (w_out (c_writer c')) h).
Proof.
  intros H R Sp H' R' Sp' E E'. pose proof (session_headers _ _ _ _ _ _ _ H R Sp E) as A. pose proof (session_headers _ _ _ _ _ _ _ H' R' Sp' E') as A'. split.
  - intros Eu. rewrite <- Eu in A'. exists (opening ++ use_shape q l). auto.
  - intros (h & B & B'). pose proof (headers_one _ _ A _ B) as ->. apply (headers_one _ _ A') in B'. apply app_inv_head in B'. exact B'.
Qed.
Lemma data_seen_app a b : data_seen (a ++ b) = data_seen a + data_seen b.
Proof. induction a as [|[t n] a IH]; [reflexivity|]. cbn [app data_seen fold_right fst snd] in *. unfold data_seen in *. cbn [fold_right fst snd]. rewrite IH. destruct t; lia. Qed.
Lemma data_cuts l : data_seen (map (fun n => (ApplicationDataTy, n + 16)) l) = fold_right Z.add 0 l.
Proof. induction l as [|n l IH]; [reflexivity|]. cbn [map fold_right]. rewrite <- IH. unfold data_seen. cbn [fold_right fst snd]. lia. Qed.
Theorem no_padding q : forall l, data_seen (opening ++ use_shape q l) = data_sent q l.
Proof.
  intros l. change (data_seen (use_shape q l) = data_sent q l). revert l. induction q as [|o next IH]; intros [|a l]; try reflexivity.
  cbn [use_shape data_sent]. rewrite data_seen_app, IH. f_equal. destruct o as [n|d|]; [reflexivity| |reflexivity]. cbn [call_shape]. rewrite data_cuts. apply cuts_sum. apply zlen_nonneg.
Qed.
(** ** An example *)
Lemma loud_run m : exists s c, zlen (concat (stretches s)) + 1 < 2 ^ 64 /\ sitting m loud s [] one_tape = (Ok tt, [Wrote (Ok 3); Closed (Ok tt)], c).
Proof.
  destruct (odd_run m) as (ss & q & A & Q & K).
  assert (R : zlen (odd_stream ss q) + 1 < 2 ^ 64).
  { assert (Lq : zlen q = 12) by (pose proof (fin_shape ss) as Fs; rewrite Q in Fs; apply app_inv_head in Fs; subst q; unfold zlen, expected_server; rewrite verify_data_length; reflexivity).
    pose proof (odd_len ss q A Lq). lia. }
  assert (Es : stretches (source (odd_stream ss q) ++ [RErr]) = [odd_stream ss q; []]) by apply marked_stretches.
  assert (Rs : zlen (concat (stretches (source (odd_stream ss q) ++ [RErr]))) + 1 < 2 ^ 64) by (rewrite Es; cbn [concat]; rewrite app_nil_r; exact R).
  exists (source (odd_stream ss q) ++ [RErr]).
  destruct (proj2 (lifespan_iff m loud (source (odd_stream ss q) ++ [RErr]) [] one_tape (Ok tt) [Wrote (Ok 3); Closed (Ok tt)]
    (stage_out (Complete ss) ++ sealed_stream (k_client (s_keys ss)) (iv_client (s_keys ss)) 1 ApplicationDataTy [[x61; x62; x63]] ++ sealed_record (k_client (s_keys ss)) (iv_client (s_keys ss)) (1 + 1) AlertTy [x02; x00] ++ []) ltac:(constructor) Rs ltac:(reflexivity))) as (c & E & _).
  - rewrite Es. eapply Span_led; [exact K|]. apply (C_write _ _ _ _ [x61; x62; x63] _ _ _ _ _ 1 [[x61; x62; x63]]); [apply P_last; cbn; lia|]. apply C_close. apply C_quit.
  - exists c. split; [exact Rs|exact E].
Qed.
Lemma write_run m : exists s, zlen (concat (stretches s)) + 1 < 2 ^ 64 /\ forall d, 1 <= zlen d <= 16384 -> exists c, sitting m (Do (Write d) (fun _ => Quit)) s [] one_tape = (Ok tt, [Wrote (Ok (zlen d))], c).
Proof.
  destruct (odd_run m) as (ss & q & A & Q & K).
  assert (R : zlen (odd_stream ss q) + 1 < 2 ^ 64).
  { assert (Lq : zlen q = 12) by (pose proof (fin_shape ss) as Fs; rewrite Q in Fs; apply app_inv_head in Fs; subst q; unfold zlen, expected_server; rewrite verify_data_length; reflexivity).
    pose proof (odd_len ss q A Lq). lia. }
  assert (Es : stretches (source (odd_stream ss q) ++ [RErr]) = [odd_stream ss q; []]) by apply marked_stretches.
  assert (Rs : zlen (concat (stretches (source (odd_stream ss q) ++ [RErr]))) + 1 < 2 ^ 64) by (rewrite Es; cbn [concat]; rewrite app_nil_r; exact R).
  exists (source (odd_stream ss q) ++ [RErr]). split; [exact Rs|]. intros d L.
  assert (Sp : 1 + spent (Do (Write d) (fun _ => Quit)) [Wrote (Ok (zlen d))] < 2 ^ 64) by (cbn [spent]; unfold call_cost, Spec_Client.call_cost; lia).
  destruct (proj2 (lifespan_iff m (Do (Write d) (fun _ => Quit)) (source (odd_stream ss q) ++ [RErr]) [] one_tape (Ok tt) [Wrote (Ok (zlen d))]
    (stage_out (Complete ss) ++ sealed_stream (k_client (s_keys ss)) (iv_client (s_keys ss)) 1 ApplicationDataTy [d] ++ []) ltac:(constructor) Rs Sp)) as (c & E & _).
  - rewrite Es. eapply Span_led; [exact K|]. apply (C_write _ _ _ _ d _ _ _ _ _ 1 [d]); [apply P_last; exact L|]. apply C_quit.
  - exists c. exact E.
Qed.
Lemma lengths_show : exists m s g d d' l l' c c', sitting m (Do (Write d) (fun _ => Quit)) s [] g = (Ok tt, l, c) /\ sitting m (Do (Write d') (fun _ => Quit)) s [] g = (Ok tt, l', c') /\
  zlen d' = zlen d + 1 /\ ~ exists h, headers (w_out (c_writer c)) h /\ headers (w_out (c_writer c')) h.
Proof.
  destruct (write_run Release) as (s & R & H). destruct (H [x61] ltac:(cbn; lia)) as (c & E). destruct (H [x61; x62] ltac:(cbn; lia)) as (c' & E').
  exists Release, s, one_tape, [x61], [x61; x62], [Wrote (Ok (zlen [x61]))], [Wrote (Ok (zlen [x61; x62]))], c, c'. split; [exact E|]. split; [exact E'|]. split; [reflexivity|].
  intros X. eapply sessions_alike in X; [|constructor|exact R| |constructor|exact R| |exact E|exact E']; [discriminate X|reflexivity|reflexivity].
Qed.
