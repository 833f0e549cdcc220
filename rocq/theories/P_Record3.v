(** Whole histories of a connection: records in the clear, installation of the keys, sealed records. *)
From Verif Require Import Spec_Record P_Util P_Codec P_RecordW P_RecordR P_Record P_Record2.
From Coq Require Import ZifyBool ZifyNat ZifyN.

Lemma run_ops_app m a : forall b w,
  run_ops m (a ++ b) w =
    let (xs, w1) := run_ops m a w in
    if existsb (fun x => match x with Panic | Diverge => true | _ => false end) xs then (xs, w1)
    else let (ys, w2) := run_ops m b w1 in (xs ++ ys, w2).
Proof.
  induction a as [|o a IH]; intros b w; cbn [run_ops app].
  - cbn [existsb]. destruct (run_ops m b w). reflexivity.
  - destruct (run_op m o w) as [[[]|k| |] w1] eqn:E; cbn [existsb orb]; try reflexivity;
      rewrite (IH b w1); destruct (run_ops m a w1) as [xs w2]; cbn [existsb orb];
      destruct (existsb _ xs); try reflexivity; destruct (run_ops m b w2); reflexivity.
Qed.

(** *** Any history: the sequence number of the k-th sealed record is k *)
Section AnyHistory.
  Variables (m : mode) (P Q : writer -> Prop).
  Hypothesis HPQ : forall w, P w -> Q w.
  Hypothesis Hrec : forall r, zlen (rc_fragment r) <= RECORD_MAX_LEN -> keeps P Q (write_record m r).
  Hypothesis Hset : forall iv, keeps P Q (w_set_iv iv).
  Hypothesis Henc : forall e, keeps P Q (w_set_encryptor e).

  Lemma any_op o : keeps P Q (run_op m o).
  Proof.
    pose proof (@keeps_new P Q HPQ) as KN.
    assert (KF : forall t fs, keeps P Q (write_fragments m t fs)).
    { intros t fs. induction fs as [|f fs IH]; cbn [write_fragments]; [apply keeps_ret|].
      apply KN. intros r Hr. apply keeps_bind; [exact HPQ|apply Hrec; exact Hr|]. intros _. exact IH. }
    destruct o; cbn [run_op].
    - apply KN. exact Hrec.
    - apply KF.
    - apply keeps_bind; [exact HPQ|apply keeps_lift; exact HPQ|]. intros r. apply KF.
    - apply keeps_bind; [exact HPQ|apply keeps_lift; exact HPQ|]. intros r. apply KF.
    - apply KF.
    - intros w Hw. unfold write_application_data. destruct (w_enc w) eqn:E; [|apply HPQ; exact Hw].
      apply KF. exact Hw.
    - apply Henc.
    - apply Hset.
  Qed.
  Lemma any_ops ops : forall w, P w -> Q (snd (run_ops m ops w)).
  Proof.
    induction ops as [|o ops IH]; intros w Hw; cbn [run_ops]; [apply HPQ; exact Hw|].
    pose proof (any_op o w Hw) as K. destruct (run_op m o w) as [[[]| | |] w1]; cbn [snd]; try exact K;
      specialize (IH w1 K); destruct (run_ops m ops w1); exact IH.
  Qed.
End AnyHistory.

(** the additional data of the log entries counts them *)
Definition ad_ok (log : list (bytes * bytes * bytes * bytes)) : Prop :=
  forall i l, nth_error log i = Some l ->
    exists t maj min, log_ad l = seq_ad (Z.of_nat i mod 2 ^ 64) t maj min (zlen (log_plain l)).
Definition counted (w : writer) : Prop :=
  healthy w /\ match w_enc w with None => w_log w = [] | Some _ => w_count w = zlen (w_log w) mod 2 ^ 64 end /\ ad_ok (w_log w).

Lemma ad_ok_nil : ad_ok []. Proof. intros [|i] l H; discriminate H. Qed.
Lemma ad_ok_snoc log l : ad_ok log ->
  (exists t maj min, log_ad l = seq_ad (zlen log mod 2 ^ 64) t maj min (zlen (log_plain l))) ->
  ad_ok (log ++ [l]).
Proof.
  intros H Ha i x Hx. destruct (Nat.ltb_spec i (length log)) as [Hi|Hi].
  - rewrite nth_error_app1 in Hx by exact Hi. apply H. exact Hx.
  - rewrite nth_error_app2 in Hx by exact Hi.
    assert (Hi' : (i - length log < length [l])%nat) by (apply nth_error_Some; congruence). cbn in Hi'.
    replace (i - length log)%nat with 0%nat in Hx by lia. cbn in Hx. inversion Hx; subst x.
    replace (Z.of_nat i) with (zlen log) by (unfold zlen; lia). auto.
Qed.

Lemma write_record_counted m r : zlen (rc_fragment r) <= RECORD_MAX_LEN ->
  keeps counted (fun w => ad_ok (w_log w)) (write_record m r).
Proof.
  intros Hfr w (Hh & Hc & Hl).
  destruct (protect r w) as [x w1] eqn:E. pose proof E as E'. unfold protect in E'.
  destruct (w_enc w) as [e|] eqn:He.
  - set (nonce := seq_nonce (w_count w) (w_iv w)) in *. set (ad := seq_ad _ _ _ _ _) in *.
    destruct (e nonce (rc_fragment r) ad) as [c|k| |] eqn:Ec; inversion E'; subst x w1; clear E'.
    2: rewrite write_record_emit; unfold mbind at 1; rewrite E; split; [exact Hh|]; rewrite He; split; [exact Hc|exact Hl].
    2-3: rewrite write_record_emit; unfold mbind at 1; rewrite E; exact Hl.
    set (l := (nonce, rc_fragment r, ad, c)) in *.
    match type of E with _ = (_, ?W) => set (w1 := W) in * end.
    assert (Hl1 : ad_ok (w_log w1)).
    { apply ad_ok_snoc; [exact Hl|].
      exists (rc_type r), (rc_major r), (rc_minor r). unfold l, log_ad, log_plain. cbn [fst snd].
      unfold ad. rewrite Hc. reflexivity. }
    destruct (Z.leb_spec (zlen c) ENC_RECORD_MAX_LEN) as [Hlen|Hlen].
    + destruct (write_record_after m r w c w1 E Hlen) as (x & w2 & _ & ((K1 & K2 & K3 & K4) & Hh2 & p & Ho & C) & Er).
      assert (Hh1 : healthy w1) by exact Hh.
      destruct C as [[-> _]|(_ & _ & Hn)]; [|contradiction].
      rewrite Er. unfold w_bump.
      assert (Hlog2 : ad_ok (w_log w2)) by (rewrite K4; exact Hl1).
      assert (Hlen1 : zlen (w_log w1) = zlen (w_log w) + 1) by (unfold w1; cbn [w_log]; rewrite zlen_app, zlen_cons, zlen_nil; lia).
      assert (Hnext : forall c', c' = (w_count w2 + 1) mod 2 ^ 64 ->
                counted (Writer (w_out w2) (w_plan w2) (w_enc w2) c' (w_iv w2) (w_log w2))).
      { intros c' ->. split; [exact (Hh2 Hh1)|]. split; [|exact Hlog2]. cbn [w_enc w_count w_log].
        rewrite K1. unfold w1 at 1. cbn [w_enc]. rewrite ?He. rewrite K4, Hlen1, K2. unfold w1; cbn [w_count]. rewrite Hc.
        rewrite Zplus_mod_idemp_l. reflexivity. }
      unfold ck. destruct ((0 <=? w_count w2 + 1) && (w_count w2 + 1 <? 2 ^ 64)) eqn:Eb.
      * apply andb_prop in Eb. apply Hnext. symmetry. apply Z.mod_small. lia.
      * destruct m; [exact Hlog2|apply Hnext; reflexivity].
    + rewrite write_record_emit. unfold mbind at 1. rewrite E.
      replace (ENC_RECORD_MAX_LEN <? zlen c) with true by (symmetry; apply Z.ltb_lt; exact Hlen).
      exact Hl1.
  - inversion E'; subst x w1; clear E'.
    assert (Hlen : zlen (rc_fragment r) <= ENC_RECORD_MAX_LEN) by (unfold RECORD_MAX_LEN in Hfr; unfold ENC_RECORD_MAX_LEN; lia).
    destruct (write_record_after m r w _ w E Hlen) as (x & w2 & _ & ((K1 & K2 & K3 & K4) & Hh2 & p & Ho & C) & Er).
    destruct C as [[-> _]|(_ & _ & Hn)]; [|contradiction].
    rewrite Er. unfold w_bump.
    assert (Hnext : forall c', counted (Writer (w_out w2) (w_plan w2) (w_enc w2) c' (w_iv w2) (w_log w2))).
    { intros c'. split; [exact (Hh2 Hh)|]. cbn [w_enc w_count w_log]. rewrite K1, K4, He. split; [exact Hc|exact Hl]. }
    unfold ck. destruct (_ && _); [apply Hnext|]. destruct m; [rewrite K4; exact Hl|apply Hnext].
Qed.

Lemma counted_ops m ops w : counted w -> ad_ok (w_log (snd (run_ops m ops w))).
Proof.
  apply (any_ops m counted (fun w => ad_ok (w_log w))).
  - intros w1 (_ & _ & H). exact H.
  - intros r Hr. apply write_record_counted. exact Hr.
  - intros iv w1 (H1 & H2 & H3). unfold w_set_iv. destruct (w_iv w1); [exact H3|]. split; [exact H1|]. split; [exact H2|exact H3].
  - intros e w1 (H1 & H2 & H3). unfold w_set_encryptor. destruct (w_enc w1) eqn:E; [exact H3|]. split; [exact H1|].
    cbn [w_enc w_count w_log]. rewrite H2. split; [reflexivity|exact ad_ok_nil].
Qed.

Lemma any_history_counts m ops plan : Forall (fun e => e = WOk) plan ->
  forall log, log = w_log (snd (run_ops m ops (writer_new plan))) -> zlen log <= 2 ^ 64 ->
  forall k l, nth_error log k = Some l ->
    exists t maj min, log_ad l = rfc_ad (Z.of_nat k) t maj min (zlen (log_plain l)).
Proof.
  intros Hp log -> Hlen k l Hk.
  assert (K : counted (writer_new plan)) by (split; [exact Hp|split; [reflexivity|exact ad_ok_nil]]).
  destruct (counted_ops m ops _ K k l Hk) as (t & maj & min & H).
  assert (Hr : 0 <= Z.of_nat k < 2 ^ 64).
  { set (log := w_log _) in *. assert (k < length log)%nat by (apply nth_error_Some; congruence). unfold zlen in Hlen. lia. }
  rewrite (Z.mod_small _ _ Hr) in H. exists t, maj, min. rewrite H. apply seq_ad_rfc.
Qed.

(** *** Nonces from the first sealed record on, whatever was sent before *)
Lemma counted_run m ops : forall w rs w1, counted w -> run_ops m ops w = (rs, w1) ->
  ~ In Panic rs -> ~ In Diverge rs -> counted w1.
Proof.
  induction ops as [|o ops IH]; intros w rs w1 Hw E Np Nd; cbn [run_ops] in E; [inversion E; subst; exact Hw|].
  assert (K : keeps counted (fun w => ad_ok (w_log w)) (run_op m o)).
  { apply any_op.
    - intros w2 (_ & _ & H). exact H.
    - intros r Hr. apply write_record_counted. exact Hr.
    - intros iv w2 (H1 & H2 & H3). unfold w_set_iv. destruct (w_iv w2); [exact H3|]. split; [exact H1|]. split; [exact H2|exact H3].
    - intros e w2 (H1 & H2 & H3). unfold w_set_encryptor. destruct (w_enc w2) eqn:E2; [exact H3|]. split; [exact H1|].
      cbn [w_enc w_count w_log]. rewrite H2. split; [reflexivity|exact ad_ok_nil]. }
  specialize (K w Hw). destruct (run_op m o w) as [[[]|k| |] w2].
  - destruct (run_ops m ops w2) as [xs w3] eqn:E3. inversion E; subst. apply (IH w2 xs w1 K E3); intros I; [apply Np|apply Nd]; right; exact I.
  - destruct (run_ops m ops w2) as [xs w3] eqn:E3. inversion E; subst. apply (IH w2 xs w1 K E3); intros I; [apply Np|apply Nd]; right; exact I.
  - inversion E; subst. exfalso. apply Np. left. reflexivity.
  - inversion E; subst. exfalso. apply Nd. left. reflexivity.
Qed.

Lemma installed_numbered m pre post plan rs w1 e iv log : Forall (fun x => x = WOk) plan ->
  run_ops m pre (writer_new plan) = (rs, w1) -> ~ In Panic rs -> ~ In Diverge rs -> w_enc w1 = None ->
  length iv = 12%nat ->
  (w_iv w1 = None /\ log = w_log (snd (run_ops m (OpSetEncryptor e :: OpSetIv iv :: post) w1)) \/
   w_iv w1 = Some iv /\ log = w_log (snd (run_ops m (OpSetEncryptor e :: post) w1))) ->
  zlen log <= 2 ^ 64 ->
  (forall k l, nth_error log k = Some l ->
     log_nonce l = rfc_nonce iv (Z.of_nat k) /\
     exists t maj min, log_ad l = rfc_ad (Z.of_nat k) t maj min (zlen (log_plain l))) /\
  NoDup (map log_nonce log).
Proof.
  intros Hp E Np Nd He Liv C Hlen.
  assert (K : counted (writer_new plan)) by (split; [exact Hp|split; [reflexivity|exact ad_ok_nil]]).
  destruct (counted_run m pre _ rs w1 K E Np Nd) as (Hh & Hl & _). rewrite He in Hl.
  set (w2 := Writer (w_out w1) (w_plan w1) (Some e) 0 (Some iv) (w_log w1)).
  assert (L : log = w_log (snd (run_ops m post w2))).
  { destruct C as [[Hi ->]|[Hi ->]]; cbn [run_ops run_op]; unfold w_set_encryptor; rewrite He.
    - unfold w_set_iv. cbn [w_iv]. rewrite Hi. cbn [w_out w_plan w_enc w_count w_log]. fold w2.
      destruct (run_ops m post w2). reflexivity.
    - rewrite Hi. fold w2. destruct (run_ops m post w2). reflexivity. }
  rewrite L in Hlen |- *. apply (ops_numbered m post e iv w2); try reflexivity; try exact Liv; [exact Hh|exact Hl|exact Hlen].
Qed.

(** *** C15 over a whole connection *)
Lemma reads_app {A} (act : M reader A) a b r xs r1 : reads act a r = (map Ok xs, r1) -> length xs = a ->
  reads act (a + b) r = let (ys, r2) := reads act b r1 in (map Ok xs ++ ys, r2).
Proof.
  revert r xs. induction a as [|a IH]; intros r xs E L; cbn [reads Nat.add] in *.
  - destruct xs; [|discriminate]. inversion E; subst. destruct (reads act b r1). reflexivity.
  - destruct xs as [|x xs]; [discriminate|]. cbn [map] in E. destruct (act r) as [[y|k| |] r2]; try discriminate.
    + destruct (reads act a r2) as [zs r3] eqn:E2. inversion E; subst. cbn [length] in L.
      rewrite (IH r2 xs E2) by lia. destruct (reads act b r1). reflexivity.
    + destruct (reads act a r2). discriminate E.
Qed.

Lemma run_ops_ok_app m a b w n w1 : run_ops m a w = (repeat (Ok tt) n, w1) ->
  run_ops m (a ++ b) w = let (ys, w2) := run_ops m b w1 in (repeat (Ok tt) n ++ ys, w2).
Proof.
  intros E. rewrite run_ops_app, E. replace (existsb _ (repeat (Ok tt) n)) with false; [reflexivity|].
  clear. induction n; [reflexivity|exact IHn].
Qed.

Lemma write_record_keys m r w : let w' := snd (write_record m r w) in w_enc w' = w_enc w /\ w_iv w' = w_iv w.
Proof.
  cbv zeta. rewrite write_record_emit. set (k1 := fun frag : bytes => _). unfold mbind. destruct (protect r w) as [x w1] eqn:E.
  assert (K : w_enc w1 = w_enc w /\ w_iv w1 = w_iv w).
  { unfold protect in E. destruct (w_enc w) as [e|] eqn:Ee.
    - match type of E with context [match ?c with _ => _ end] => destruct c as [cc| | |] end; inversion E; subst; cbn; auto.
    - inversion E; subst; auto. }
  destruct x as [s|k| |]; try exact K. unfold k1. destruct (ENC_RECORD_MAX_LEN <? zlen s); [exact K|].
  destruct (emit_spec (header_parts r s) w1) as (y & w2 & E2 & ((K1 & _ & K3 & _) & _)). unfold mbind. rewrite E2.
  destruct y as [[]|k| |]; cbn [snd]; [|split; destruct K; congruence..].
  unfold w_bump. destruct (ck m 64 (w_count w2 + 1)); cbn; split; destruct K; congruence.
Qed.

Lemma w_enc_kept m os : forall w rs w1, w_enc w = None -> run_ops m (map as_wop os) w = (rs, w1) -> w_enc w1 = None /\ w_iv w1 = w_iv w.
Proof.
  intros w rs w1 He E.
  set (P := fun x : writer => w_enc x = None /\ w_iv x = w_iv w).
  assert (KR : forall r, keeps P P (write_record m r)).
  { intros r x [H1 H2]. destruct (write_record m r x) as [y x'] eqn:Ex.
    pose proof (write_record_keys m r x) as KK. rewrite Ex in KK. cbn [snd] in KK. destruct KK as [KE KI].
    assert (P x') by (split; congruence). destruct y; assumption. }
  assert (KF : forall t fs, keeps P P (write_fragments m t fs)).
  { intros t fs. induction fs as [|f fs IH]; cbn [write_fragments]; [apply keeps_ret|].
    apply keeps_new; [auto|]. intros r Hr. apply keeps_bind; [auto|apply KR|]. intros _. exact IH. }
  assert (KO : forall o, keeps P P (run_op m (as_wop o))).
  { intros [h|a| |d]; cbn [as_wop run_op].
    - apply keeps_bind; [auto|apply keeps_lift; auto|]. intros r. apply KF.
    - apply keeps_bind; [auto|apply keeps_lift; auto|]. intros r. apply KF.
    - apply KF.
    - intros x Hx. unfold write_application_data. destruct (w_enc x); [|exact Hx]. apply KF. exact Hx. }
  assert (G : forall os x rs x1, P x -> run_ops m (map as_wop os) x = (rs, x1) -> P x1).
  { clear - KO. induction os as [|o os IH]; intros x rs x1 Hx E; cbn [map run_ops] in E; [inversion E; subst; exact Hx|].
    pose proof (KO o x Hx) as K. destruct (run_op m (as_wop o) x) as [[[]|k| |] x2].
    1,2: destruct (run_ops m (map as_wop os) x2) as [ys x3] eqn:E3; inversion E; subst; exact (IH x2 ys x1 K E3).
    all: inversion E; subst; exact K. }
  exact (G os w rs w1 (conj He eq_refl) E).
Qed.

Lemma whole_connection m os1 os2 e d iv plan :
  Forall (fun x => x = WOk) plan -> Forall wf_msg_op os1 -> Forall wf_msg_op os2 ->
  payloads os1 < 2 ^ 64 -> payloads os2 < 2 ^ 64 -> (forall x, ~ In (SendApp x) os1) ->
  opens e d -> 0 <= dc_mac_len d <= 2048 -> length iv = 12%nat ->
  exists w' bs1 bs2 ms1 ms2,
    run_ops m (map as_wop os1 ++ OpSetEncryptor e :: OpSetIv iv :: map as_wop os2) (writer_new plan) =
      (repeat (Ok tt) (length os1 + (2 + length os2)), w') /\
    w_out w' = bs1 ++ bs2 /\ delivers os1 ms1 /\ delivers os2 ms2 /\
    forall s rest, stream s = bs1 ++ bs2 ++ rest ->
      exists r1 r2 r3, reads (read_message m) (length ms1) (reader_new s) = (map Ok ms1, r1) /\
        (do* _ := r_set_decryptor d in r_set_iv iv) r1 = (Ok tt, r2) /\
        reads (read_message m) (length ms2) r2 = (map Ok ms2, r3) /\ stream (r_src r3) = rest.
Proof.
  intros Hp W1 W2 C1 C2 NA O D L.
  assert (P0 : forall s, paired (writer_new plan) (reader_new s)) by (intros s; repeat split; discriminate).
  destruct (end_to_end m os1 W1 (writer_new plan) (reader_new []) Hp (P0 [])) as (w1 & bs1 & ms1 & E1 & O1 & D1 & R1).
  { exact C1. } { intros x Hx. exfalso. exact (NA x Hx). }
  destruct (w_enc_kept m os1 (writer_new plan) _ w1 eq_refl E1) as [He Hi]. cbn [w_iv writer_new] in Hi.
  assert (H1 : healthy w1).
  { assert (K : counted (writer_new plan)) by (split; [exact Hp|split; [reflexivity|exact ad_ok_nil]]).
    assert (N : forall x, In x (repeat (Ok tt) (length os1)) -> x = Ok tt) by (intros x Hx; apply repeat_spec in Hx; exact Hx).
    destruct (counted_run m _ _ _ w1 K E1) as (H & _); [intros I; apply N in I; discriminate..|]. exact H. }
  set (w2 := Writer (w_out w1) (w_plan w1) (Some e) 0 (Some iv) (w_log w1)).
  assert (PS : forall r, r_count r = 0 -> r_iv r = Some iv -> r_buf r = [] -> r_dec r = Some d -> paired w2 r).
  { intros r A1 A2 A3 A4. unfold paired. rewrite A1, A2, A3, A4. cbn. repeat split; try lia; try exact O. exists iv. auto. }
  destruct (end_to_end m os2 W2 w2 (Reader [] (Some d) 0 [] (Some iv)) H1) as (w3 & bs2 & ms2 & E2 & O2 & D2 & R2).
  { apply PS; reflexivity. } { exact C2. } { intros x _. discriminate. }
  exists w3, bs1, bs2, ms1, ms2. split; [|split; [|split; [exact D1|split; [exact D2|]]]].
  - rewrite (run_ops_ok_app m _ _ _ _ w1 E1). cbn [run_ops run_op]. unfold w_set_encryptor. rewrite He.
    unfold w_set_iv. cbn [w_iv]. rewrite Hi. cbn [w_out w_plan w_enc w_count w_log]. fold w2. rewrite E2.
    rewrite repeat_app. reflexivity.
  - rewrite O2. cbn [w_out w2]. rewrite O1. reflexivity.
  - intros s rest Hs. destruct (R1 (reader_new s) (bs2 ++ rest) (P0 s) Hs) as (r1 & Y1 & S1 & (Q1 & Q2 & Q3 & Q4 & Q5)).
    rewrite He in Q5. destruct (r_dec r1) eqn:Ed; [contradiction|]. rewrite Hi in Q3.
    set (r2 := Reader (r_src r1) (Some d) 0 (r_buf r1) (Some iv)).
    destruct (R2 r2 rest) as (r3 & Y2 & S2 & _); [apply PS; try reflexivity; exact Q4|exact S1|].
    exists r1, r2, r3. split; [exact Y1|]. split; [|split; [exact Y2|exact S2]].
    unfold mbind, r_set_decryptor. rewrite Ed. unfold r_set_iv. cbn [r_iv]. rewrite <- Q3. reflexivity.
Qed.
