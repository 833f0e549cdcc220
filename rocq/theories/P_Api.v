(** Proofs for Prop_Api.v: histories of calls through the whole public interface of a connected client. *)
From Verif Require Import Spec_Api P_Util P_Codec P_RecordW P_RecordR P_Record P_Record2 P_Record3 P_Aead P_Prf P_Fp P_Halt P_Client P_Client2 P_App P_App2 P_Client3 P_Client4 P_Panic P_Ops P_Client5.
From Coq Require Import ZifyBool ZifyNat ZifyN.
Local Open Scope list_scope.
Local Open Scope Z_scope.
#[local] Opaque SHA256 HMAC aead_seal aead_decrypt aead_encrypt compute_keys PRF nmul.

(** ** Each call works on one part of the client *)
Lemma writing_op m o : side_of o = Writing -> exists b : M writer value, forall c, do_api m o c = on_writer b c.
Proof.
  intros H. destruct o; try discriminate H; cbn [do_api]; unfold fmap; try (eapply bind_op; first [apply on_writer_op|apply write_op|apply close_op|apply send_alert_op]).
  - apply bind_op, or_alert_op, on_writer_op.
  - exists (mret V_done). intros []; reflexivity.
Qed.
Lemma reading_op m o : side_of o = Reading -> (exists n, o = A_read n) \/ exists b : M reader value, forall c, do_api m o c = on_reader b c.
Proof.
  intros H. destruct o; try discriminate H; cbn [do_api]; [left; eauto|right; eauto|right].
  exists (fmap V_bytes (r_read n)). intros [r w g b]. unfold fmap, mbind, on_reader, mret. cbn [c_reader c_writer c_rng c_buf]. destruct (r_read n r) as [[] r']; reflexivity.
Qed.
Lemma drawing_op m o : side_of o = Drawing -> exists b : M rng value, forall c, do_api m o c = on_rng b c.
Proof.
  intros H. destruct o; try discriminate H. cbn [do_api]. exists (fmap V_bytes (rng_fill n)). intros [r w g b].
  unfold fmap, mbind, on_rng, mret. cbn [c_reader c_writer c_rng c_buf]. destruct (rng_fill n g) as [[] g']; reflexivity.
Qed.
Lemma fmap_run {S A B} (f : A -> B) (a : M S A) s : fmap f a s = (match fst (a s) with Ok x => Ok (f x) | Err k => Err k | Panic => Panic | Diverge => Diverge end, snd (a s)).
Proof. unfold fmap, mbind, mret. destruct (a s) as [[] s']; reflexivity. Qed.
Lemma do_frame m o c x c' : do_api m o c = (x, c') ->
  (forall d, d <> side_of o -> part_of d c' = part_of d c) /\
  forall c2, part_of (side_of o) c2 = part_of (side_of o) c -> exists c2', do_api m o c2 = (x, c2') /\ part_of (side_of o) c2' = part_of (side_of o) c' /\
    forall d, d <> side_of o -> part_of d c2' = part_of d c2.
Proof.
  destruct (side_of o) eqn:Sd.
  - destruct (reading_op m o Sd) as [(n & ->)|(b & H)].
    + cbn [do_api]. rewrite fmap_run. destruct (client_read m n c) as [y c1] eqn:E. cbn [fst snd]. intros Q.
      pose proof (read_writer _ _ _ _ _ E) as [W G]. assert (c1 = c') by congruence. subst c1. split.
      * intros [| |] D; [congruence|cbn [part_of]; congruence..].
      * intros [r2 w2 g2 b2] P2. cbn [part_of c_reader c_buf] in P2. assert (r2 = c_reader c) by congruence. assert (b2 = c_buf c) by congruence. subst r2 b2.
        exists (Client (c_reader c') w2 g2 (c_buf c')). rewrite fmap_run, (read_frame _ _ _ _ _ w2 g2 E). cbn [fst snd]. split; [congruence|]. split; [reflexivity|].
        intros [| |] D; [congruence|reflexivity..].
    + rewrite H. unfold on_reader. destruct (b (c_reader c)) as [y r1] eqn:E. intros Q. inversion Q; subst. split.
      * intros [| |] D; [congruence|reflexivity..].
      * intros [r2 w2 g2 b2] P2. cbn [part_of c_reader c_buf] in P2. inversion P2; subst. rewrite H. unfold on_reader. cbn [c_reader c_writer c_rng c_buf]. rewrite E.
        eexists. split; [reflexivity|]. split; [reflexivity|]. intros [| |] D; [congruence|reflexivity..].
  - destruct (writing_op m o Sd) as (b & H). rewrite H. unfold on_writer. destruct (b (c_writer c)) as [y w1] eqn:E. intros Q. inversion Q; subst. split.
    + intros [| |] D; [reflexivity|congruence|reflexivity].
    + intros [r2 w2 g2 b2] P2. cbn [part_of c_writer] in P2. inversion P2; subst. rewrite H. unfold on_writer. cbn [c_reader c_writer c_rng c_buf]. rewrite E.
      eexists. split; [reflexivity|]. split; [reflexivity|]. intros [| |] D; [reflexivity|congruence|reflexivity].
  - destruct (drawing_op m o Sd) as (b & H). rewrite H. unfold on_rng. destruct (b (c_rng c)) as [y w1] eqn:E. intros Q. inversion Q; subst. split.
    + intros [| |] D; [reflexivity|reflexivity|congruence].
    + intros [r2 w2 g2 b2] P2. cbn [part_of c_rng] in P2. inversion P2; subst. rewrite H. unfold on_rng. cbn [c_reader c_writer c_rng c_buf]. rewrite E.
      eexists. split; [reflexivity|]. split; [reflexivity|]. intros [| |] D; [reflexivity|reflexivity|congruence].
Qed.
Definition went_on (x : res value) : Prop := match x with Ok _ | Err _ => True | _ => False end.
Lemma beq_side a b : side_beq a b = true <-> a = b.
Proof. destruct a, b; split; (reflexivity || discriminate). Qed.
Lemma api_separate m d : forall l c xs c' c2, api_run m l c = (xs, c') -> Forall went_on xs -> part_of d c2 = part_of d c ->
  exists c2', api_run m (filter (on_side d) l) c2 = (answers_of d l xs, c2') /\ part_of d c2' = part_of d c' /\ forall d', d' <> d -> part_of d' c2' = part_of d' c2.
Proof.
  induction l as [|o l IH]; intros c xs c' c2 R F P2; cbn [api_run filter] in *.
  - inversion R; subst. exists c2. auto.
  - destruct (do_api m o c) as [x c1] eqn:E. pose proof (do_frame _ _ _ _ _ E) as [F1 F2].
    assert (exists ys, xs = x :: ys /\ api_run m l c1 = (ys, c') /\ went_on x /\ Forall went_on ys) as (ys & -> & R' & Wx & Wy).
    { destruct x as [v|k| |]; [destruct (api_run m l c1) as [ys c3] eqn:E3..| |]; inversion R; subst; inversion F; subst; try contradiction; eauto 6. }
    clear R F. unfold answers_of. cbn [combine filter map fst snd]. fold (answers_of d l ys).
    destruct (on_side d o) eqn:S.
    + unfold on_side in S. apply beq_side in S. subst d. destruct (F2 c2 P2) as (c3 & Q1 & Q2 & Q3). destruct (IH c1 ys c' c3 R' Wy Q2) as (c4 & J1 & J2 & J3).
      exists c4. split; [|split; [exact J2|intros d' D; rewrite J3, Q3 by exact D; reflexivity]].
      cbn [api_run]. rewrite Q1. destruct x; try contradiction; rewrite J1; reflexivity.
    + assert (d <> side_of o). { intros ->. unfold on_side in S. assert (side_beq (side_of o) (side_of o) = true) by (apply beq_side; reflexivity). congruence. }
      destruct (IH c1 ys c' c2 R' Wy) as (c4 & J1 & J2 & J3); [rewrite F1 by assumption; exact P2|]. exists c4. auto.
Qed.

(** ** Invariants of the writer under every call *)
Section Invariant.
  Variables (m : mode) (P Q : writer -> Prop) (raw : bytes -> Prop) (okr : record -> Prop).
  Hypothesis HPQ : forall w, P w -> Q w.
  Hypothesis Henc : forall w, P w -> w_enc w <> None.
  Hypothesis Hnew : forall r, zlen (rc_fragment r) <= RECORD_MAX_LEN -> okr r.
  Hypothesis Hrec : forall r, okr r -> keeps P Q (write_record m r).
  Hypothesis Hset : forall iv, keeps P Q (w_set_iv iv).
  Hypothesis Hraw : forall bs, raw bs -> keeps P Q (write_all bs).
  Definition ckeeps {A} (a : M client A) : Prop :=
    forall c, P (c_writer c) -> match a c with (Ok _, c') | (Err _, c') => P (c_writer c') | (_, c') => Q (c_writer c') end.
  Lemma ckeeps_writer {A} (a : M writer A) : keeps P Q a -> ckeeps (on_writer a).
  Proof. intros H c K. specialize (H _ K). unfold on_writer. destruct (a (c_writer c)) as [[] w']; exact H. Qed.
  Lemma ckeeps_map {A B} (f : A -> B) a : ckeeps a -> ckeeps (fmap f a).
  Proof. intros H c K. specialize (H c K). rewrite fmap_run. destruct (a c) as [[] c']; exact H. Qed.
  Lemma ckeeps_alert k : ckeeps (send_tls_alert m k).
  Proof.
    intros c K. pose proof (ckeeps_writer _ (keeps_op m P Q HPQ Henc (fun r L => Hrec r (Hnew r L)) Hset (OpAlert (Alert AL_fatal (alert_from_err k)))) c K) as H. cbn [run_op] in H.
    unfold send_tls_alert, mret. destruct k; try exact K; destruct (on_writer _ c) as [[] c']; exact H.
  Qed.
  Lemma ckeeps_or {A} (a : M client A) : ckeeps a -> ckeeps (or_alert m a).
  Proof.
    intros H c K. specialize (H c K). unfold or_alert. destruct (a c) as [[x|k| |] c']; try exact H.
    pose proof (ckeeps_alert k c' H) as H'. destruct (send_tls_alert m k c') as [[] c'']; exact H'.
  Qed.
  Lemma ckeeps_reader o : side_of o <> Writing -> ckeeps (do_api m o).
  Proof.
    intros H c K. destruct (do_api m o c) as [x c'] eqn:E. apply do_frame in E as [E _]. specialize (E Writing (not_eq_sym H)). cbn [part_of] in E.
    assert (E' : c_writer c' = c_writer c) by congruence. rewrite E'. destruct x; auto.
  Qed.
  Lemma ckeeps_api o : (forall bs, o = A_raw_write bs -> raw bs) -> (forall r, o = A_record r -> okr r) -> ckeeps (do_api m o).
  Proof.
    pose proof (keeps_op m P Q HPQ Henc (fun r L => Hrec r (Hnew r L)) Hset) as KO.
    intros Hr Ho. destruct (side_beq (side_of o) Writing) eqn:S; [apply beq_side in S|apply ckeeps_reader; intros X; apply beq_side in X; congruence].
    destruct o; try discriminate S; cbn [do_api]; apply ckeeps_map.
    - apply (ckeeps_map (fun _ => zlen buf)), ckeeps_or, ckeeps_writer, (KO (OpApp buf)).
    - apply ckeeps_or, ckeeps_writer, (KO (OpApp buf)).
    - intros c K. exact K.
    - apply ckeeps_writer, (KO (OpAlert (Alert AL_fatal AD_close_notify))).
    - apply ckeeps_alert.
    - apply ckeeps_writer, KO.
    - apply ckeeps_writer, Hrec, Ho. reflexivity.
    - apply ckeeps_writer, Hraw, Hr. reflexivity.
  Qed.
  Lemma api_keeps : forall l c, (forall bs, raw_in l bs -> raw bs) -> (forall r, In (A_record r) l -> okr r) -> P (c_writer c) -> Q (c_writer (snd (api_run m l c))).
  Proof.
    induction l as [|o l IH]; intros c Hr Ho K; cbn [api_run]; [apply HPQ; exact K|].
    pose proof (ckeeps_api o (fun bs E => Hr bs (or_introl E)) (fun r E => Ho r (or_introl E)) c K) as H.
    assert (Hr' : forall bs, raw_in l bs -> raw bs) by (intros bs H'; apply Hr; right; exact H').
    assert (Ho' : forall r, In (A_record r) l -> okr r) by (intros r H'; apply Ho; right; exact H').
    destruct (do_api m o c) as [[x|k| |] c1]; cbn [snd]; try exact H; specialize (IH c1 Hr' Ho' H); destruct (api_run m l c1) as [xs c2]; exact IH.
  Qed.
End Invariant.

(** ** The keys of both directions *)
Lemma write_all_keys bs w : let w' := snd (write_all bs w) in w_enc w' = w_enc w /\ w_iv w' = w_iv w /\ w_count w' = w_count w /\ w_log w' = w_log w.
Proof. destruct (write_all_spec bs w) as (x & w' & -> & (K1 & K2 & K3 & K4) & _). cbn [snd]. auto. Qed.
Lemma writer_keys m l c e iv : w_enc (c_writer c) = Some e -> w_iv (c_writer c) = Some iv ->
  w_enc (c_writer (snd (api_run m l c))) = Some e /\ w_iv (c_writer (snd (api_run m l c))) = Some iv.
Proof.
  intros He Hi. apply (api_keeps m (fun w => w_enc w = Some e /\ w_iv w = Some iv) (fun w => w_enc w = Some e /\ w_iv w = Some iv) (fun _ => True) (fun _ => True)); auto.
  - intros w [H _]. congruence.
  - intros r _ w [H1 H2]. pose proof (write_record_keys m r w) as [K1 K2]. destruct (write_record m r w) as [[] w']; cbn [snd] in *; split; congruence.
  - intros v w [H1 H2]. unfold w_set_iv. rewrite H2. auto.
  - intros bs _ w [H1 H2]. pose proof (write_all_keys bs w) as (K1 & K2 & _). destruct (write_all bs w) as [[] w']; cbn [snd] in *; split; congruence.
Qed.
Lemma do_rop_keys m o r d iv : r_dec r = Some d -> r_iv r = Some iv ->
  r_dec (snd (do_rop m o r)) = Some d /\ r_iv (snd (do_rop m o r)) = Some iv.
Proof.
  intros Hd Hi. destruct o; cbn [do_rop]; rewrite fmap_run; cbn [snd].
  - destruct (read_message m r) as [x r'] eqn:E. apply read_message_keys in E as [K1 K2]. cbn [snd]. rewrite K1, K2. auto.
  - destruct (read_application_data m r) as [x r'] eqn:E. apply read_app_keys in E as [K1 K2]. cbn [snd]. rewrite K1, K2. auto.
  - destruct (read_handshake m r) as [x r'] eqn:E. apply read_handshake_keys in E as [K1 K2]. cbn [snd]. rewrite K1, K2. auto.
  - destruct (read_change_cipher_spec m r) as [x r'] eqn:E. apply read_ccs_keys in E as [K1 K2]. cbn [snd]. rewrite K1, K2. auto.
  - unfold r_set_decryptor. rewrite Hd. auto.
  - unfold r_set_iv. rewrite Hi. auto.
Qed.
Lemma rd_keys m len done c x c' : rd m len done c x c' -> r_dec (c_reader c') = r_dec (c_reader c) /\ r_iv (c_reader c') = r_iv (c_reader c).
Proof.
  induction 1; cbn [with_buf c_reader] in *; auto;
    match goal with H : read_application_data _ _ = _ |- _ => apply read_app_keys in H as [K1 K2] end; rewrite ?K1, ?K2 in *; auto.
Qed.
Lemma read_keys_kept m n c x c' : client_read m n c = (x, c') -> r_dec (c_reader c') = r_dec (c_reader c) /\ r_iv (c_reader c') = r_iv (c_reader c).
Proof. intros E. apply read_rd in E. eapply rd_keys; eauto. Qed.
Lemma do_reader_keys m o c d iv : r_dec (c_reader c) = Some d -> r_iv (c_reader c) = Some iv ->
  r_dec (c_reader (snd (do_api m o c))) = Some d /\ r_iv (c_reader (snd (do_api m o c))) = Some iv.
Proof.
  intros Hd Hi. destruct (side_beq (side_of o) Reading) eqn:Sd; [apply beq_side in Sd|].
  - destruct o; try discriminate Sd; cbn [do_api].
    + rewrite fmap_run. cbn [snd]. destruct (client_read m n c) as [x c'] eqn:E. apply read_keys_kept in E as [K1 K2]. cbn [snd]. rewrite K1, K2. auto.
    + unfold on_reader. pose proof (do_rop_keys m o (c_reader c) d iv Hd Hi) as H. destruct (do_rop m o (c_reader c)) as [x r']. exact H.
    + rewrite fmap_run. cbn [snd]. unfold on_reader, r_read. destruct (fill_exact (r_src (c_reader c)) n) as [x s']. auto.
  - destruct (do_api m o c) as [x c'] eqn:E. cbn [snd]. apply do_frame in E as [E _].
    assert (Reading <> side_of o). { intros X. rewrite <- X in Sd. discriminate Sd. }
    specialize (E _ H). cbn [part_of] in E. assert (Er : c_reader c' = c_reader c) by congruence. rewrite Er. auto.
Qed.
Lemma reader_keys m : forall l c d iv, r_dec (c_reader c) = Some d -> r_iv (c_reader c) = Some iv ->
  r_dec (c_reader (snd (api_run m l c))) = Some d /\ r_iv (c_reader (snd (api_run m l c))) = Some iv.
Proof.
  induction l as [|o l IH]; intros c d iv Hd Hi; cbn [api_run]; [auto|].
  pose proof (do_reader_keys m o c d iv Hd Hi) as [Kd Ki]. destruct (do_api m o c) as [[x|k| |] c1]; cbn [snd] in *; auto;
    specialize (IH c1 d iv Kd Ki); destruct (api_run m l c1) as [xs c2]; exact IH.
Qed.
Lemma connected_r_iv m s p g c : client_new m s p g = (Ok tt, c) -> exists ss, reached m s g (Complete ss) /\
  keyed_w m (c_writer c) (k_client (s_keys ss)) (iv_client (s_keys ss)) 1 /\
  r_dec (c_reader c) = Some (new_decryptor m (k_server (s_keys ss))) /\ r_iv (c_reader c) = Some (iv_server (s_keys ss)).
Proof.
  intros E. apply connected in E as (ss & R & An & _ & W & _ & _ & D & _). exists ss. split; [exact R|]. split; [exact W|]. split; [exact D|].
  destruct An as (r4 & _ & r5 & CC & FN). destruct (read_ccs_keys _ _ _ _ CC) as [_ V]. cbn [ived_reader r_iv] in V.
  destruct (read_handshake_keys _ _ _ _ FN) as [_ V']. cbn [decrypting r_dec r_iv] in V'. congruence.
Qed.
Lemma keys_fixed m s p g c l : client_new m s p g = (Ok tt, c) ->
  exists ss, reached m s g (Complete ss) /\ let c' := snd (api_run m l c) in
    w_enc (c_writer c') = Some (new_encryptor m (k_client (s_keys ss))) /\ w_iv (c_writer c') = Some (iv_client (s_keys ss)) /\
    r_dec (c_reader c') = Some (new_decryptor m (k_server (s_keys ss))) /\ r_iv (c_reader c') = Some (iv_server (s_keys ss)).
Proof.
  intros E. apply connected_r_iv in E as (ss & R & (W1 & W2 & _) & D & V). exists ss. split; [exact R|]. cbv zeta.
  destruct (writer_keys m l c _ _ W1 W2) as [K1 K2]. destruct (reader_keys m l c _ _ D V) as [K3 K4]. auto.
Qed.
Lemma rekey_panics m s p g c l o : client_new m s p g = (Ok tt, c) -> rekeys o = true ->
  fst (do_api m o (snd (api_run m l c))) = Panic.
Proof.
  intros E Ro. destruct (keys_fixed m s p g c l E) as (ss & _ & K). cbv zeta in K. destruct K as (K1 & K2 & K3 & K4). set (c' := snd (api_run m l c)) in *. clearbody c'.
  destruct o as [| | | | | |o| |o| | |]; try discriminate Ro; destruct o; try discriminate Ro; cbn [do_api run_op do_rop].
  - rewrite fmap_run. unfold on_writer, w_set_encryptor. rewrite K1. reflexivity.
  - rewrite fmap_run. unfold on_writer, w_set_iv. rewrite K2. reflexivity.
  - unfold on_reader. rewrite fmap_run. unfold r_set_decryptor. rewrite K3. reflexivity.
  - unfold on_reader. rewrite fmap_run. unfold r_set_iv. rewrite K4. reflexivity.
Qed.

(** ** Everything sent since the keys were installed is sealed, except what is pushed past the TLS layer *)
Definition sent_since (l : list api) (e : encryptor) (w0 w : writer) : Prop :=
  w_enc w = Some e /\ exists log pieces,
    w_log w = w_log w0 ++ log /\ Forall (logged_by e) log /\
    w_out w = w_out w0 ++ concat pieces /\ Forall (piece_of l log) pieces.
Lemma piece_more l log x p : piece_of l log p -> piece_of l (log ++ x) p.
Proof. intros [H|H]; [left; apply sealed_piece_more; exact H|right; exact H]. Qed.
Lemma write_record_sent m l e w0 r : keeps (sent_since l e w0) (sent_since l e w0) (write_record m r).
Proof.
  intros w (He & log & pieces & H1 & H2 & H3 & H4).
  assert (S : sealed_since e w w). { split; [exact He|]. exists [], []. rewrite !app_nil_r. auto. }
  pose proof (write_record_sealed m e w r w S) as K. destruct (write_record m r w) as [x w'].
  assert (K' : sealed_since e w w') by (destruct x; exact K). clear K.
  assert (G : sent_since l e w0 w').
  { destruct K' as (He' & log' & pieces' & J1 & J2 & J3 & J4). split; [exact He'|]. exists (log ++ log'), (pieces ++ pieces').
    split; [rewrite J1, H1, app_assoc; reflexivity|]. split; [apply Forall_app; auto|].
    split; [rewrite J3, H3, concat_app, app_assoc; reflexivity|]. apply Forall_app. split.
    - eapply Forall_impl; [|exact H4]. intros p. apply piece_more.
    - eapply Forall_impl; [|exact J4]. intros p (t & a & b & y & cut & Hin & H). left. exists t, a, b, y, cut. split; [apply in_or_app; auto|exact H]. }
  destruct x; exact G.
Qed.
Lemma raw_sent l e w0 bs : raw_in l bs -> keeps (sent_since l e w0) (sent_since l e w0) (write_all bs).
Proof.
  intros Hin w (He & log & pieces & H1 & H2 & H3 & H4).
  destruct (write_all_spec bs w) as (x & w' & -> & (K1 & K2 & K3 & K4) & _ & p & Ho & C).
  assert (G : sent_since l e w0 w').
  { split; [congruence|]. exists log, (pieces ++ [p]). split; [congruence|]. split; [exact H2|].
    split; [rewrite Ho, H3, concat_app; cbn [concat]; rewrite app_nil_r, app_assoc; reflexivity|].
    apply Forall_app. split; [exact H4|]. constructor; [|constructor]. right.
    destruct C as [[_ ->]|(_ & [q Hq] & _)]; [exists bs, []; rewrite app_nil_r; auto|exists bs, q; auto]. }
  destruct x; exact G.
Qed.
Lemma api_sealed m s p g c l : client_new m s p g = (Ok tt, c) -> let c' := snd (api_run m l c) in
  exists ss log pieces, reached m s g (Complete ss) /\
    w_log (c_writer c') = w_log (c_writer c) ++ log /\ Forall (logged_by (new_encryptor m (k_client (s_keys ss)))) log /\
    w_out (c_writer c') = w_out (c_writer c) ++ concat pieces /\ Forall (piece_of l log) pieces.
Proof.
  intros E. apply connected_r_iv in E as (ss & R & (W1 & W2 & _) & _). cbv zeta. set (e := new_encryptor m (k_client (s_keys ss))) in *.
  assert (H : sent_since l e (c_writer c) (c_writer (snd (api_run m l c)))).
  { apply (api_keeps m (sent_since l e (c_writer c)) (sent_since l e (c_writer c)) (raw_in l) (fun _ => True)); auto.
    - intros w [H _]. congruence.
    - intros r _. apply write_record_sent.
    - intros v w H. unfold w_set_iv. destruct (w_iv w); [exact H|exact H].
    - intros bs Hin. apply raw_sent. exact Hin.
    - split; [exact W1|]. exists [], []. rewrite !app_nil_r. auto. }
  destruct H as (_ & log & pieces & H). exists ss, log, pieces. auto.
Qed.

(** ** Nonces: the writer through the handshake *)
Definition fresh_w (w : writer) : Prop := healthy w /\ w_enc w = None /\ w_iv w = None /\ w_log w = [].
Definition half_w (w : writer) : Prop := healthy w /\ (exists e, w_enc w = Some e) /\ w_iv w = None /\ w_log w = [] /\ w_count w = 0.
Definition full_w (w : writer) : Prop := exists e iv, numbered e iv w /\ Forall (fun l => zlen (log_plain l) <= RECORD_MAX_LEN) (w_log w).
Definition leads {A} (P Q : writer -> Prop) (a : M client A) : Prop :=
  forall c x c', P (c_writer c) -> a c = (Ok x, c') -> Q (c_writer c').
Lemma leads_bind {A B} P Q R (a : M client A) (f : A -> M client B) : leads P Q a -> (forall x, leads Q R (f x)) -> leads P R (mbind a f).
Proof.
  intros Ha Hf c y c' K E. unfold mbind in E. destruct (a c) as [[x| | |] c1] eqn:E1; try discriminate E.
  eapply Hf; [|exact E]. eapply Ha; eauto.
Qed.
Lemma leads_lift {A} P (r : res A) : leads P P (mlift r).
Proof. intros c x c' K E. unfold mlift in E. inversion E; subst. exact K. Qed.
Lemma leads_reader {A} P (a : M reader A) : leads P P (on_reader a).
Proof. intros c x c' K E. unfold on_reader in E. destruct (a (c_reader c)). inversion E; subst. exact K. Qed.
Lemma leads_rng {A} P (a : M rng A) : leads P P (on_rng a).
Proof. intros c x c' K E. unfold on_rng in E. destruct (a (c_rng c)). inversion E; subst. exact K. Qed.
Lemma leads_expect {A} P m (pick : handshake -> option A) : leads P P (expect m pick).
Proof.
  unfold expect. apply (leads_bind P P); [apply leads_reader|]. intros h. destruct (pick h) as [a|].
  - intros c x c' K E. inversion E; subst. exact K.
  - intros c x c' K E. discriminate E.
Qed.
Lemma leads_keeps {A} P Q (a : M writer A) : keeps P Q a -> leads P P (on_writer a).
Proof. intros H c x c' K E. unfold on_writer in E. specialize (H _ K). destruct (a (c_writer c)) as [y w]. inversion E; subst. exact H. Qed.
Lemma record_fresh m r : keeps fresh_w (fun _ => True) (write_record m r).
Proof.
  intros w (H & He & Hi & Hl). rewrite write_record_emit. unfold mbind at 1. rewrite protect_clear by exact He.
  destruct (ENC_RECORD_MAX_LEN <? zlen (rc_fragment r)); [exact I|].
  destruct (emit_spec (header_parts r (rc_fragment r)) w) as (x & w2 & E2 & (K1 & K2 & K3 & K4) & Hh & _).
  assert (G : fresh_w w2). { split; [auto|]. split; [congruence|]. split; congruence. }
  unfold mbind. rewrite E2. destruct x as [[]| | |]; try exact I; [|exact G].
  unfold w_bump. destruct (ck m 64 (w_count w2 + 1)) as [z| | |]; try exact I; [|exact G].
  destruct G as (G1 & G2 & G3 & G4). repeat split; cbn; assumption.
Qed.
Lemma fragments_kept (P Q : writer -> Prop) m : (forall w, P w -> Q w) -> (forall r, zlen (rc_fragment r) <= RECORD_MAX_LEN -> keeps P Q (write_record m r)) -> forall t fs, keeps P Q (write_fragments m t fs).
Proof.
  intros HPQ Hrec t fs. induction fs as [|f fs IH]; cbn [write_fragments]; [apply keeps_ret|].
  apply keeps_new; [exact HPQ|]. intros r Hr. apply keeps_bind; [exact HPQ|apply Hrec; exact Hr|]. intros _. exact IH.
Qed.
Lemma handshake_kept (P Q : writer -> Prop) m h : (forall w, P w -> Q w) -> (forall r, zlen (rc_fragment r) <= RECORD_MAX_LEN -> keeps P Q (write_record m r)) -> keeps P Q (write_handshake m h).
Proof. intros HPQ Hrec. apply keeps_bind; [exact HPQ|apply keeps_lift; exact HPQ|]. intros d. apply fragments_kept; assumption. Qed.
Lemma record_full m r : zlen (rc_fragment r) <= RECORD_MAX_LEN -> keeps full_w (fun _ => True) (write_record m r).
Proof.
  intros Hr w (e & iv & H & F). pose proof (write_record_numbered m e iv r w H) as K. pose proof H as (_ & He & _).
  assert (He' : w_enc w <> None) by congruence. pose proof (write_record_plain m r Hr w (conj He' F)) as K'.
  destruct (write_record m r w) as [[] w']; try exact I; (exists e, iv; split; [exact K|apply K']).
Qed.
Lemma handshake_numbers m : leads fresh_w full_w (client_handshake m).
Proof.
  assert (HF : forall h, leads fresh_w fresh_w (on_writer (write_handshake m h))) by (intros h; apply (leads_keeps fresh_w (fun _ => True)), handshake_kept; [auto|intros r _; apply record_fresh]).
  assert (HC : leads fresh_w fresh_w (on_writer (write_change_cipher_spec m))) by (apply (leads_keeps fresh_w (fun _ => True)), fragments_kept; [auto|intros r _; apply record_fresh]).
  assert (HN : forall h, leads full_w full_w (on_writer (write_handshake m h))) by (intros h; apply (leads_keeps full_w (fun _ => True)), handshake_kept; [auto|apply record_full]).
  assert (HE : forall e, leads fresh_w half_w (on_writer (w_set_encryptor e))).
  { intros e c x c' (H & He & Hi & Hl) E. unfold on_writer, w_set_encryptor in E. rewrite He in E. inversion E; subst. repeat split; cbn; eauto. }
  assert (HV : forall iv, leads half_w full_w (on_writer (w_set_iv iv))).
  { intros iv c x c' (H & (e & He) & Hi & Hl & Hc) E. unfold on_writer, w_set_iv in E. rewrite Hi in E. inversion E; subst. exists e, iv.
    split; [|cbn [c_writer w_log]; rewrite Hl; constructor]. split; [exact H|]. split; [exact He|]. split; [reflexivity|]. split; [cbn; rewrite Hc, Hl; reflexivity|].
    cbn. rewrite Hl. intros [|i] l Hx; discriminate Hx. }
  unfold client_handshake. set (enc := new_encryptor m). set (dec := new_decryptor m). clearbody enc dec.
  repeat first
    [ eapply leads_bind; [first [apply leads_lift|apply leads_reader|apply leads_rng|apply leads_expect|apply HF|apply HC|apply HN|apply HE|apply HV]|intros ?]
    | match goal with |- leads _ _ (let (_, _) := ?y in _) => destruct y end ].
  match goal with |- leads _ _ (if ?b then _ else _) => destruct b end; intros c9 y9 c9' K9 E9; [inversion E9; subst; exact K9|discriminate E9].
Qed.
Lemma connected_numbered m s p g c : client_new m s p g = (Ok tt, c) -> healthy (writer_new p) -> exists ss, reached m s g (Complete ss) /\
  length (iv_client (s_keys ss)) = 12%nat /\ numbered (new_encryptor m (k_client (s_keys ss))) (iv_client (s_keys ss)) (c_writer c) /\
  Forall (fun l => zlen (log_plain l) <= RECORD_MAX_LEN) (w_log (c_writer c)).
Proof.
  intros E H. pose proof E as E0. apply connected_r_iv in E0 as (ss & R & (W1 & W2 & _ & _ & Li & _) & _). exists ss. split; [exact R|]. split; [exact Li|].
  unfold client_new, or_alert in E. destruct (client_handshake m (client_init s p g)) as [x c1] eqn:Eh.
  assert (x = Ok tt /\ c1 = c) as [-> ->].
  { destruct x as [[]|k| |]; [inversion E; auto| |inversion E|inversion E]. destruct (send_tls_alert m k c1) as [[] ?]; inversion E. }
  destruct (handshake_numbers m (client_init s p g) tt c) as (e & iv & N & F); [repeat split; assumption|exact Eh|]. split; [|exact F].
  pose proof N as (_ & N1 & N2 & _). replace (new_encryptor m (k_client (s_keys ss))) with e by congruence. replace (iv_client (s_keys ss)) with iv by congruence. exact N.
Qed.
Lemma log_ok_rfc iv log : length iv = 12%nat -> log_ok iv log -> zlen log <= 2 ^ 64 ->
  (forall k l, nth_error log k = Some l -> log_nonce l = rfc_nonce iv (Z.of_nat k) /\
     exists t maj min, log_ad l = rfc_ad (Z.of_nat k) t maj min (zlen (log_plain l))) /\
  NoDup (map log_nonce log).
Proof.
  intros Hiv H Hlen.
  assert (Hr : forall k l, nth_error log k = Some l -> 0 <= Z.of_nat k < 2 ^ 64).
  { intros k l Hk. assert (k < length log)%nat by (apply nth_error_Some; congruence). unfold zlen in Hlen. lia. }
  assert (H1 : forall k l, nth_error log k = Some l ->
     log_nonce l = rfc_nonce iv (Z.of_nat k) /\
     exists t maj min, log_ad l = rfc_ad (Z.of_nat k) t maj min (zlen (log_plain l))).
  { intros k l Hk. specialize (Hr k l Hk). destruct (H k l Hk) as (Hn & t & maj & min & Ha).
    rewrite Z.mod_small in Hn, Ha by exact Hr. rewrite seq_nonce_rfc in Hn by assumption.
    split; [exact Hn|]. exists t, maj, min. rewrite Ha, seq_ad_rfc. reflexivity. }
  split; [exact H1|].
  apply NoDup_nth_error. intros i j Hij Heq. rewrite map_length in Hij.
  rewrite !nth_error_map in Heq.
  destruct (nth_error log i) as [a|] eqn:Ea; [|apply nth_error_None in Ea; lia].
  destruct (nth_error log j) as [b|] eqn:Eb; [|discriminate Heq].
  cbn in Heq. inversion Heq as [Hab].
  destruct (H1 i a Ea) as [Ni _]. destruct (H1 j b Eb) as [Nj _]. rewrite Ni, Nj in Hab.
  apply rfc_nonce_inj in Hab; [lia|exact Hiv|eapply Hr; eassumption|eapply Hr; eassumption].
Qed.
Lemma raw_numbered e iv bs : keeps (numbered e iv) (fun w => log_ok iv (w_log w)) (write_all bs).
Proof.
  intros w (H & He & Hi & Hc & Hl). destruct (write_all_spec bs w) as (x & w' & -> & (K1 & K2 & K3 & K4) & Hh & p & _ & C).
  assert (G : numbered e iv w'). { split; [auto|]. split; [congruence|]. split; [congruence|]. rewrite K2, K4. auto. }
  destruct x; try exact G; apply G.
Qed.
Lemma api_nonces m s p g c l : client_new m s p g = (Ok tt, c) -> healthy (writer_new p) ->
  let log := w_log (c_writer (snd (api_run m l c))) in zlen log <= 2 ^ 64 ->
  exists ss, reached m s g (Complete ss) /\
    (forall k e, nth_error log k = Some e -> log_nonce e = rfc_nonce (iv_client (s_keys ss)) (Z.of_nat k) /\
       exists t maj min, log_ad e = rfc_ad (Z.of_nat k) t maj min (zlen (log_plain e))) /\
    NoDup (map log_nonce log).
Proof.
  intros E H. cbv zeta. intros Hlen. destruct (connected_numbered m s p g c E H) as (ss & R & Li & N & _). exists ss. split; [exact R|].
  set (e := new_encryptor m (k_client (s_keys ss))) in *. set (iv := iv_client (s_keys ss)) in *. clearbody e iv.
  apply log_ok_rfc; [exact Li| |exact Hlen].
  apply (api_keeps m (numbered e iv) (fun w => log_ok iv (w_log w)) (fun _ => True) (fun _ => True)); auto.
  - intros w (_ & _ & _ & _ & K). exact K.
  - intros w (_ & K & _). congruence.
  - intros r _. apply write_record_numbered.
  - intros v w (K1 & K2 & K3 & K4 & K5). unfold w_set_iv. rewrite K3. exact K5.
  - intros bs _. apply raw_numbered.
Qed.


(** ** The length of what is sealed *)
Definition short_log (w : writer) : Prop := w_enc w <> None /\ Forall (fun l => zlen (log_plain l) <= RECORD_MAX_LEN) (w_log w).
Lemma api_short m s p g c l : client_new m s p g = (Ok tt, c) -> healthy (writer_new p) ->
  (forall r, In (A_record r) l -> zlen (rc_fragment r) <= 16384) ->
  Forall (fun e => zlen (log_plain e) <= 16384) (w_log (c_writer (snd (api_run m l c)))).
Proof.
  intros E H Hl. destruct (connected_numbered m s p g c E H) as (ss & _ & _ & (_ & He & _) & F).
  apply (api_keeps m short_log short_log (fun _ => True) (fun r => zlen (rc_fragment r) <= RECORD_MAX_LEN)); auto.
  - intros w [K _]. exact K.
  - intros r Hr. apply (write_record_plain m r Hr).
  - intros v w K. unfold w_set_iv. destruct (w_iv w); exact K.
  - intros bs _ w [K1 K2]. pose proof (write_all_keys bs w) as (J1 & _ & _ & J2). destruct (write_all bs w) as [[] w']; cbn [snd] in *; (split; [congruence|rewrite J2; exact K2]).
  - split; [congruence|exact F].
Qed.

(** ** Every call returns, and the writing ones do not panic *)
Section Total.
  Variables (m : mode) (key iv : bytes).
  Definition total {S A} (K : S -> Z -> Prop) (n : Z) (a : M S A) : Prop :=
    forall s k, K s k -> k + n < 2 ^ 64 -> exists x s' k', a s = (x, s') /\ fine x /\ K s' k' /\ k <= k' <= k + n.
  Definition Kw (w : writer) (k : Z) : Prop := keyed_w m w key iv k.
  Definition Kc (c : client) (k : Z) : Prop := keyed_w m (c_writer c) key iv k.
  Lemma total_ret {S A} (K : S -> Z -> Prop) n (a : A) : 0 <= n -> total K n (mret a).
  Proof. intros Hn s k H L. exists (Ok a), s, k. repeat split; auto; lia. Qed.
  Lemma total_bind {S A B} (K : S -> Z -> Prop) n1 n2 (a : M S A) (f : A -> M S B) : 0 <= n2 -> total K n1 a -> (forall x, total K n2 (f x)) -> total K (n1 + n2) (mbind a f).
  Proof.
    intros Hn Ha Hf s k H L. destruct (Ha s k H) as (x & s1 & k1 & E & F & H1 & L1); [lia|]. unfold mbind. rewrite E. destruct x as [x|e| |]; try contradiction.
    - destruct (Hf x s1 k1 H1) as (y & s2 & k2 & E2 & F2 & H2 & L2); [lia|]. exists y, s2, k2. repeat split; auto; lia.
    - exists (Err e), s1, k1. repeat split; auto; lia.
  Qed.
  Lemma total_map {S A B} (K : S -> Z -> Prop) n (f : A -> B) (a : M S A) : total K n a -> total K n (fmap f a).
  Proof. intros H. replace n with (n + 0) by lia. apply total_bind; [lia|exact H|]. intros x. apply total_ret. lia. Qed.
  Lemma record_total r : zlen (rc_fragment r) <= 18416 -> total Kw 1 (write_record m r).
  Proof.
    intros Hr w k (He & Hi & Hc & Lk & Li & K0) L.
    assert (Ep : exists w1, protect r w = (Ok (aead_seal key (seq_nonce (w_count w) (w_iv w)) (seq_ad (w_count w) (rc_type r) (rc_major r) (rc_minor r) (zlen (rc_fragment r))) (rc_fragment r)), w1) /\
      w_enc w1 = w_enc w /\ w_iv w1 = w_iv w /\ w_count w1 = w_count w).
    { unfold protect. rewrite He. unfold new_encryptor at 1. rewrite aead_encrypt_spec; [|exact Lk|apply seq_nonce_length|apply fits_record; lia]. eexists. split; [reflexivity|]. auto. }
    destruct Ep as (w1 & Ep & P1 & P2 & P3). set (sd := aead_seal key _ _ _) in *.
    assert (Ls : zlen sd = zlen (rc_fragment r) + 16) by (unfold sd, zlen; rewrite aead_seal_length; lia).
    destruct (write_record_after m r w sd w1 Ep) as (x & w2 & _ & ((K1 & K2 & K3 & K4) & _ & p & _ & C) & Er); [unfold ENC_RECORD_MAX_LEN; lia|].
    rewrite Er. destruct C as [[-> _]|(-> & _)].
    - unfold w_bump. rewrite ck_ok by lia. eexists _, _, (k + 1). split; [reflexivity|]. split; [exact I|]. split; [|lia].
      unfold Kw, keyed_w. cbn. repeat split; try congruence; lia.
    - eexists _, _, k. split; [reflexivity|]. split; [exact I|]. split; [|lia]. unfold Kw, keyed_w. repeat split; try congruence; lia.
  Qed.
  Lemma fragments_total t fs : Forall legal_fragment fs -> total Kw (zlen fs) (write_fragments m t fs).
  Proof.
    induction 1 as [|f fs Hf Hfs IH]; cbn [write_fragments]; [apply total_ret; unfold zlen; cbn; lia|].
    intros w k H L. rewrite zlen_cons in L |- *. pose proof (zlen_nonneg fs).
    unfold mbind at 1, mlift. rewrite (record_new_legal t f Hf : record_new t (fst tls_version) (snd tls_version) f = _). destruct Hf as [_ Hf].
    apply (total_bind Kw 1 (zlen fs) (write_record m _)); [lia|apply record_total; cbn; lia|intros _; exact IH|exact H|lia].
  Qed.
  Lemma data_total t d : total Kw (zlen d) (write_data m t d).
  Proof.
    destruct (fragments_legal d) as (_ & H1 & H2). intros w k H L. destruct (fragments_total t _ H1 w k H) as (x & w' & k' & E & F & H' & L'); [lia|].
    exists x, w', k'. split; [exact E|]. split; [exact F|]. split; [exact H'|lia].
  Qed.
  Lemma app_total d : total Kw (zlen d) (write_application_data m d).
  Proof. intros w k H L. unfold write_application_data. pose proof H as (He & _). rewrite He. apply data_total; assumption. Qed.
  Lemma handshake_total h : wf_handshake h -> total Kw (zlen (e_handshake h)) (write_handshake m h).
  Proof. intros Hw w k H L. unfold write_handshake, mbind at 1, mlift. rewrite tls_write_hs by exact Hw. apply data_total; assumption. Qed.
  Lemma alert_bytes a : exists b1 b2, tls_write i_alert a = Ok [b1; b2].
  Proof. destruct a as [l d]. destruct l, d; eexists _, _; reflexivity. Qed.
  Lemma alert_total a : total Kw 2 (write_alert m a).
  Proof.
    intros w k H L. unfold write_alert, mbind at 1, mlift. destruct (alert_bytes a) as (b1 & b2 & ->).
    apply (data_total AlertTy [b1; b2] w k H). exact L.
  Qed.
  Lemma on_writer_total {A} n (a : M writer A) : total Kw n a -> total Kc n (on_writer a).
  Proof.
    intros Ha c k H L. destruct (Ha (c_writer c) k H L) as (x & w' & k' & E & F & H' & L'). unfold on_writer. rewrite E.
    eexists _, _, k'. split; [reflexivity|]. split; [exact F|]. split; [exact H'|exact L'].
  Qed.
  Lemma send_total e : total Kc 2 (send_tls_alert m e).
  Proof.
    intros c k H L. destruct (on_writer_total 2 _ (alert_total (Alert AL_fatal (alert_from_err e))) c k H L) as (x & c' & k' & E & F & H' & L').
    unfold send_tls_alert. destruct e; [..|]; try (rewrite E; destruct x; try contradiction; (eexists _, c', k'; split; [reflexivity|]; split; [exact I|]; split; [exact H'|exact L'])).
    all: try (apply total_ret; [lia|exact H|exact L]).
  Qed.
  Lemma or_total {A} n (a : M client A) : 0 <= n -> total Kc n a -> total Kc (n + 2) (or_alert m a).
  Proof.
    intros Hn Ha c k H L. destruct (Ha c k H) as (x & c1 & k1 & E & F & H1 & L1); [lia|]. unfold or_alert. rewrite E. destruct x as [x|e| |]; try contradiction.
    - exists (Ok x), c1, k1. repeat split; try apply H1; lia.
    - destruct (send_total e c1 k1 H1) as (y & c2 & k2 & E2 & F2 & H2 & L2); [lia|]. rewrite E2. destruct y; try contradiction;
        (eexists _, c2, k2; split; [reflexivity|]; split; [exact I|]; split; [exact H2|lia]).
  Qed.
  Lemma raw_total bs : total Kw 0 (write_all bs).
  Proof.
    intros w k (H1 & H2 & H3 & H4 & H5 & H6) L. destruct (write_all_spec bs w) as (x & w' & -> & (K1 & K2 & K3 & K4) & _ & p & _ & C).
    exists x, w', k. split; [reflexivity|]. split; [destruct C as [[-> _]|(-> & _)]; exact I|]. split; [|lia]. unfold Kw, keyed_w. repeat split; congruence || lia.
  Qed.
  Lemma api_total o : side_of o = Writing -> legal_call o -> total Kc (call_cost o) (do_api m o).
  Proof.
    intros Sd Lg. destruct o; try discriminate Sd; cbn [do_api call_cost legal_call] in *; apply total_map.
    - apply (total_map Kc _ (fun _ => zlen buf)). apply or_total; [apply zlen_nonneg|apply on_writer_total, app_total].
    - apply or_total; [apply zlen_nonneg|apply on_writer_total, app_total].
    - apply total_ret. lia.
    - apply on_writer_total, alert_total.
    - apply send_total.
    - apply on_writer_total. destruct o; cbn [run_op wop_cost] in *; try contradiction.
      + intros w k H L. unfold mbind at 1, mlift, record_new. replace (RECORD_MAX_LEN <? zlen f) with false by (symmetry; apply Z.ltb_ge; exact Lg).
        apply (record_total (Rec t maj min f)); [cbn; lia|exact H|exact L].
      + apply data_total.
      + apply handshake_total. exact Lg.
      + apply alert_total.
      + apply (data_total ChangeCipherSpecTy [x01]).
      + apply app_total.
    - apply on_writer_total, record_total. exact Lg.
    - apply on_writer_total, raw_total.
  Qed.
End Total.
Lemma cost_nonneg o : 0 <= call_cost o.
Proof. destruct o as [|buf|buf| | | |[] | | | | |]; cbn [call_cost wop_cost]; try lia; try (pose proof (zlen_nonneg buf); lia); apply zlen_nonneg. Qed.
Lemma writes_total m key iv : forall l c k, keyed_w m (c_writer c) key iv k -> Forall legal_call l -> k + total_cost l < 2 ^ 64 ->
  forall i o, nth_error l i = Some o -> nth_error (fst (api_run m l c)) i = Some Panic -> side_of o <> Writing.
Proof.
  induction l as [|a l IH]; intros c k K F L i o Hi Hp; [destruct i; discriminate Hi|]. inversion F as [|? ? Fa Fl]; subst.
  cbn [total_cost fold_right map] in L. fold (total_cost l) in L. pose proof (cost_nonneg a) as Ca. cbn [api_run] in Hp.
  assert (Cl : 0 <= total_cost l). { clear. induction l as [|b l IH]; cbn; [lia|]. pose proof (cost_nonneg b). unfold total_cost in IH. lia. }
  destruct (side_beq (side_of a) Writing) eqn:Sd.
  - apply beq_side in Sd. destruct (api_total m key iv a Sd Fa c k K) as (x & c1 & k1 & E & Fx & K1 & L1); [lia|]. rewrite E in Hp.
    specialize (IH c1 k1 K1 Fl ltac:(lia)). destruct (api_run m l c1) as [xs c2]. destruct x; try contradiction;
      (destruct i; [discriminate Hp|]; cbn [fst nth_error] in *; eapply IH; eassumption).
  - assert (Sd' : side_of a <> Writing) by (intros X; apply beq_side in X; congruence).
    destruct i; [injection Hi as <-; exact Sd'|]. destruct (do_api m a c) as [x c1] eqn:E. apply do_frame in E as [E _]. specialize (E Writing (not_eq_sym Sd')). cbn [part_of] in E.
    assert (K1 : keyed_w m (c_writer c1) key iv k) by (assert (c_writer c1 = c_writer c) as -> by congruence; exact K).
    specialize (IH c1 k K1 Fl ltac:(lia)). destruct (api_run m l c1) as [xs c2]. destruct x; cbn [fst nth_error] in *; try (destruct i; discriminate Hp); eapply IH; eassumption.
Qed.
Lemma api_writes_total m s p g c l : client_new m s p g = (Ok tt, c) -> Forall legal_call l -> 1 + total_cost l < 2 ^ 64 ->
  forall i o, nth_error l i = Some o -> nth_error (fst (api_run m l c)) i = Some Panic -> side_of o <> Writing.
Proof. intros E. apply connected_r_iv in E as (ss & _ & W & _). intros F L. eapply writes_total; eassumption. Qed.
(** serialisers return, for every value *)
Definition writes_fine {A} (I : item A) : Prop := forall a, fine (tls_write I a).
Lemma fine_bind {A B} (x : res A) (f : A -> res B) : fine x -> (forall a, fine (f a)) -> fine (rbind x f).
Proof. destruct x; cbn; auto. Qed.
Lemma pair_fine {A B} (IA : item A) (IB : item B) : writes_fine IA -> writes_fine IB -> writes_fine (i_pair IA IB).
Proof. intros HA HB [a b]. cbn. apply fine_bind; [apply HA|]. intros x. apply fine_bind; [apply HB|]. intros y. exact I. Qed.
Lemma map_fine {A B} (f : A -> B) g (IA : item A) : writes_fine IA -> writes_fine (i_map f g IA).
Proof. intros H b. apply H. Qed.
Lemma enum_fine {A} w (code : A -> Z) all : writes_fine (i_enum w code all).
Proof. intros a. exact I. Qed.
Lemma u8_fine : writes_fine i_u8. Proof. intros a. exact I. Qed.
Lemma array_fine n : writes_fine (i_array n). Proof. intros a. exact I. Qed.
Lemma vec_fine {A} (I0 : item A) mn mx : writes_fine I0 -> writes_fine (i_vec I0 mn mx).
Proof.
  intros H v. cbn. apply fine_bind; [|intros x; exact I]. induction v as [|a v IH]; cbn; [exact I|].
  apply fine_bind; [apply H|]. intros x. apply fine_bind; [exact IH|]. intros y. exact I.
Qed.
Lemma option_fine {A} (I0 : item A) : writes_fine I0 -> writes_fine (i_option I0).
Proof. intros H [a|]; cbn; [apply H|exact I]. Qed.
Lemma suite_fine : writes_fine i_cipher_suite. Proof. intros []; exact I. Qed.
Lemma sig_hash_fine : writes_fine i_sig_hash. Proof. apply map_fine, pair_fine; apply enum_fine. Qed.
Lemma ext_fine : writes_fine i_extension.
Proof.
  intros [l|l|l|ty d]; cbn [tls_write i_extension ext_write]; unfold ext_write_body; try exact I; (apply fine_bind; [|intros x; exact I]).
  - apply vec_fine, enum_fine.
  - apply vec_fine, enum_fine.
  - apply vec_fine, sig_hash_fine.
Qed.
Lemma version_fine : writes_fine i_version. Proof. apply map_fine, pair_fine; apply u8_fine. Qed.
Lemma handshake_fine : writes_fine i_handshake.
Proof.
  intros h. cbn [tls_write i_handshake]. unfold hs_write, hs_write_body. destruct h; (apply fine_bind; [|intros x; exact I]); try exact I.
  - apply map_fine. repeat apply pair_fine; [apply version_fine|apply array_fine|apply vec_fine, u8_fine|apply vec_fine, suite_fine|apply vec_fine, enum_fine|apply option_fine, vec_fine, ext_fine].
  - apply map_fine. repeat apply pair_fine; [apply version_fine|apply array_fine|apply vec_fine, u8_fine|apply suite_fine|apply enum_fine|apply option_fine, vec_fine, ext_fine].
  - apply vec_fine, vec_fine, u8_fine.
  - apply map_fine. repeat apply pair_fine; [apply vec_fine, enum_fine|apply vec_fine, sig_hash_fine|apply vec_fine, vec_fine, u8_fine].
Qed.

(** ** Every call returns *)
Section Returns.
  Variables (m : mode) (key : bytes).
  Definition Kt (w : writer) : Prop := w_enc w = Some (new_encryptor m key).
  Definition returns {S A} (K : S -> Prop) (a : M S A) : Prop := forall s, K s -> halts (fst (a s)) /\ K (snd (a s)).
  Lemma returns_bind {S A B} (K : S -> Prop) (a : M S A) (f : A -> M S B) : returns K a -> (forall x, returns K (f x)) -> returns K (mbind a f).
  Proof. intros Ha Hf s H. destruct (Ha s H) as [H1 H2]. unfold mbind. destruct (a s) as [[x|e| |] s1]; cbn [fst snd] in *; auto. apply Hf. exact H2. Qed.
  Lemma returns_ret {S A} (K : S -> Prop) (a : A) : returns K (mret a).
  Proof. intros s H. split; [exact I|exact H]. Qed.
  Lemma returns_lift {S A} (K : S -> Prop) (r : res A) : halts r -> returns K (mlift r).
  Proof. intros Hr s H. split; [exact Hr|exact H]. Qed.
  Lemma returns_map {S A B} (K : S -> Prop) (f : A -> B) (a : M S A) : returns K a -> returns K (fmap f a).
  Proof. intros H. apply returns_bind; [exact H|]. intros x. apply returns_ret. Qed.
  Lemma record_returns r : returns Kt (write_record m r).
  Proof.
    intros w H. pose proof (write_record_keys m r w) as [K1 _]. cbv zeta in K1. split; [|unfold Kt; rewrite K1; exact H]. clear K1.
    rewrite write_record_emit. set (rest := fun frag : bytes => _). unfold mbind. 
    assert (P1 : halts (fst (protect r w))).
    { unfold protect. rewrite H. unfold new_encryptor at 1. match goal with |- context [aead_encrypt ?a ?b ?c ?d ?e] => pose proof (aead_encrypt_halts a b c d e) as X; destruct (aead_encrypt a b c d e) end; try exact I. destruct X. }
    destruct (protect r w) as [x w1]. cbn [fst] in P1. destruct x as [s|e| |]; try exact I; [|destruct P1].
    unfold rest. destruct (ENC_RECORD_MAX_LEN <? zlen s); [exact I|]. unfold mbind.
    destruct (emit_spec (header_parts r s) w1) as (x & w2 & -> & _ & _ & p & _ & C). destruct C as [[-> _]|(-> & _)]; [|exact I].
    unfold w_bump. pose proof (ck_halts m 64 (w_count w2 + 1)) as X. destruct (ck m 64 (w_count w2 + 1)); try exact I. destruct X.
  Qed.
  Lemma fragments_returns t fs : returns Kt (write_fragments m t fs).
  Proof.
    induction fs as [|f fs IH]; cbn [write_fragments]; [apply returns_ret|]. apply returns_bind.
    - apply returns_lift. unfold record_new. destruct (RECORD_MAX_LEN <? zlen f); exact I.
    - intros r. apply returns_bind; [apply record_returns|]. intros _. exact IH.
  Qed.
  Lemma fine_halts {A} (x : res A) : fine x -> halts x. Proof. destruct x; cbn; auto. Qed.
  Lemma wop_returns o : returns Kt (run_op m o).
  Proof.
    destruct o; cbn [run_op].
    - apply returns_bind; [|intros r; apply record_returns]. apply returns_lift. unfold record_new. destruct (RECORD_MAX_LEN <? zlen f); exact I.
    - apply fragments_returns.
    - apply returns_bind; [apply returns_lift, fine_halts, handshake_fine|]. intros d. apply fragments_returns.
    - apply returns_bind; [apply returns_lift|intros d; apply fragments_returns]. destruct (alert_bytes a) as (b1 & b2 & ->). exact I.
    - apply fragments_returns.
    - intros w H. unfold write_application_data. rewrite H. apply fragments_returns. exact H.
    - intros w H. unfold w_set_encryptor. rewrite H. split; [exact I|exact H].
    - intros w H. unfold w_set_iv. destruct (w_iv w); (split; [exact I|exact H]).
  Qed.
  Lemma raw_returns bs : returns Kt (write_all bs).
  Proof.
    intros w H. destruct (write_all_spec bs w) as (x & w' & -> & (K1 & _) & _ & p & _ & C). cbn [fst snd].
    split; [destruct C as [[-> _]|(-> & _)]; exact I|unfold Kt; congruence].
  Qed.
  Definition Kh (c : client) : Prop := Kt (c_writer c) /\ terminates (r_dec (c_reader c)) /\ r_dec (c_reader c) <> None.
  Lemma on_writer_returns {A} (a : M writer A) : returns Kt a -> returns Kh (on_writer a).
  Proof. intros H c [K1 K2]. destruct (H _ K1) as [H1 H2]. unfold on_writer. destruct (a (c_writer c)) as [x w]. cbn [fst snd] in *. split; [exact H1|split; assumption]. Qed.
  Lemma send_returns e : returns Kh (send_tls_alert m e).
  Proof.
    intros c K. pose proof (on_writer_returns _ (wop_returns (OpAlert (Alert AL_fatal (alert_from_err e)))) c K) as [H1 H2]. cbn [run_op] in H1, H2.
    unfold send_tls_alert, mret. destruct e; try (split; [exact I|exact K]); destruct (on_writer _ c) as [[] c']; cbn [fst snd] in *; auto; (split; [exact I|exact H2]).
  Qed.
  Lemma or_returns {A} (a : M client A) : returns Kh a -> returns Kh (or_alert m a).
  Proof.
    intros H c K. destruct (H c K) as [H1 H2]. unfold or_alert. destruct (a c) as [[x|e| |] c1]; cbn [fst snd] in *; auto.
    destruct (send_returns e c1 H2) as [J1 J2]. destruct (send_tls_alert m e c1) as [[] c2]; cbn [fst snd] in *; auto; (split; [exact I|exact J2]).
  Qed.
  Lemma reader_kept (r r' : reader) : r_dec r' = r_dec r -> terminates (r_dec r) /\ r_dec r <> None -> terminates (r_dec r') /\ r_dec r' <> None.
  Proof. intros ->. auto. Qed.
  Lemma rop_returns o : returns (fun r => terminates (r_dec r) /\ r_dec r <> None) (do_rop m o).
  Proof.
    destruct o; cbn [do_rop]; apply returns_map; intros r [T N].
    - pose proof (read_message_halts m r T) as H. destruct (read_message m r) as [x r'] eqn:E. apply read_message_keys in E as [E _]. split; [exact H|eapply reader_kept; [exact E|auto]].
    - pose proof (read_app_halts m r T) as H. destruct (read_application_data m r) as [x r'] eqn:E. apply read_app_keys in E as [E _]. split; [exact H|eapply reader_kept; [exact E|auto]].
    - pose proof (read_handshake_halts m r T) as H. destruct (read_handshake m r) as [x r'] eqn:E. apply read_handshake_keys in E as [E _]. split; [exact H|eapply reader_kept; [exact E|auto]].
    - pose proof (read_ccs_halts m r T) as H. destruct (read_change_cipher_spec m r) as [x r'] eqn:E. apply read_ccs_keys in E as [E _]. split; [exact H|eapply reader_kept; [exact E|auto]].
    - unfold r_set_decryptor. destruct (r_dec r) eqn:E; [|congruence]. cbn [fst snd]. rewrite E. split; [exact I|auto].
    - unfold r_set_iv. destruct (r_iv r); (split; [exact I|auto]).
  Qed.
  Lemma api_returns o : returns Kh (do_api m o).
  Proof.
    destruct o; cbn [do_api]; try apply returns_map.
    - intros c K. pose proof K as (K1 & K2 & K3). pose proof (client_read_halts m n c K2) as H. destruct (client_read m n c) as [x c'] eqn:E.
      pose proof (read_keys_kept _ _ _ _ _ E) as [E1 _]. pose proof (read_writer _ _ _ _ _ E) as [E2 _]. cbn [fst snd] in *. split; [destruct x; try exact I; destruct H|].
      split; [rewrite E2; exact K1|]. rewrite E1. auto.
    - apply (returns_map Kh (fun _ => zlen buf)), or_returns, on_writer_returns, (wop_returns (OpApp buf)).
    - apply or_returns, on_writer_returns, (wop_returns (OpApp buf)).
    - apply returns_ret.
    - apply on_writer_returns, (wop_returns (OpAlert _)).
    - apply send_returns.
    - apply on_writer_returns, wop_returns.
    - apply on_writer_returns, record_returns.
    - intros c [K1 K2]. destruct (rop_returns o (c_reader c) K2) as [H1 H2]. unfold on_reader. destruct (do_rop m o (c_reader c)) as [x r]. cbn [fst snd] in *. split; [exact H1|split; assumption].
    - apply on_writer_returns, raw_returns.
    - intros c [K1 K2]. unfold on_reader, r_read. destruct (fill_total (r_src (c_reader c)) n) as [[got H]|H]; destruct (fill_exact (r_src (c_reader c)) n) as [x s']; cbn [fst snd] in *; subst x; (split; [exact I|split; assumption]).
    - intros c K. unfold on_rng, rng_fill. destruct (length (c_rng c) <? n)%nat; (split; [exact I|exact K]).
  Qed.
  Lemma run_returns : forall l c, Kh c -> Forall halts (fst (api_run m l c)).
  Proof.
    induction l as [|o l IH]; intros c K; cbn [api_run]; [constructor|]. destruct (api_returns o c K) as [H1 H2].
    destruct (do_api m o c) as [x c1]. cbn [fst snd] in *. specialize (IH c1 H2). destruct (api_run m l c1) as [xs c2]. destruct x; cbn [fst] in *; repeat constructor; auto.
  Qed.
End Returns.
Lemma api_halts m s p g c l : client_new m s p g = (Ok tt, c) -> Forall halts (fst (api_run m l c)).
Proof.
  intros E. apply connected_r_iv in E as (ss & _ & (W & _) & D & _). apply (run_returns m (k_client (s_keys ss))). split; [exact W|]. rewrite D.
  split; [apply decryptor_terminates|discriminate].
Qed.

(** ** Records built by hand *)
Lemma record_sent m r w key iv k : keyed_w m w key iv k -> healthy w -> k + 1 < 2 ^ 64 -> zlen (rc_fragment r) <= 18416 ->
  let nonce := rfc_nonce iv k in let ad := rfc_ad k (rc_type r) (rc_major r) (rc_minor r) (zlen (rc_fragment r)) in
  let sealed := aead_seal key nonce ad (rc_fragment r) in
  exists w', write_record m r w = (Ok tt, w') /\ w_out w' = w_out w ++ wire (rc_type r) (rc_major r) (rc_minor r) sealed /\
    w_log w' = w_log w ++ [(nonce, rc_fragment r, ad, sealed)].
Proof.
  intros (He & Hi & Hc & Lk & Li & K0) Hh L Hr. cbv zeta. set (nonce := rfc_nonce iv k). set (ad := rfc_ad _ _ _ _ _). set (sd := aead_seal _ _ _ _).
  set (w1 := Writer (w_out w) (w_plan w) (w_enc w) (w_count w) (w_iv w) (w_log w ++ [(nonce, rc_fragment r, ad, sd)])).
  assert (Ep : protect r w = (Ok sd, w1)).
  { unfold protect. rewrite He, Hi, Hc, seq_nonce_rfc, seq_ad_rfc by (assumption || lia). fold nonce ad. unfold new_encryptor at 1.
    rewrite aead_encrypt_spec; [unfold w1; rewrite He, Hi, Hc; reflexivity|exact Lk|apply rfc_nonce_length; lia|apply fits_record; lia]. }
  assert (Ls : zlen sd = zlen (rc_fragment r) + 16) by (unfold sd, zlen; rewrite aead_seal_length; lia).
  destruct (write_record_after m r w sd w1 Ep) as (x & w2 & _ & ((K1 & K2 & K3 & K4) & _ & p & Ho & C) & Er); [unfold ENC_RECORD_MAX_LEN; lia|].
  destruct C as [[-> ->]|(_ & _ & Hn)]; [|exfalso; apply Hn; exact Hh].
  rewrite Er. unfold w_bump. rewrite K2. cbn [w1 w_count]. unfold w1; cbn [w_count]. rewrite Hc, ck_ok by lia.
  eexists. split; [reflexivity|]. cbn [w_out w_log]. split; [rewrite Ho; reflexivity|rewrite K4; reflexivity].
Qed.
Lemma record_panics m r w key iv k : keyed_w m w key iv k -> 18416 < zlen (rc_fragment r) <= 2 ^ 24 -> fst (write_record m r w) = Panic /\ w_out (snd (write_record m r w)) = w_out w.
Proof.
  intros (He & Hi & Hc & Lk & Li & K0) Hr. 
  assert (Ep : exists sd w1, protect r w = (Ok sd, w1) /\ w_out w1 = w_out w /\ zlen sd = zlen (rc_fragment r) + 16).
  { unfold protect. rewrite He. unfold new_encryptor at 1. rewrite aead_encrypt_spec; [|exact Lk|apply seq_nonce_length|apply fits_record; lia].
    eexists _, _. split; [reflexivity|]. split; [reflexivity|]. unfold zlen. rewrite aead_seal_length. lia. }
  destruct Ep as (sd & w1 & Ep & O & Ls). rewrite write_record_emit. unfold mbind. rewrite Ep.
  replace (ENC_RECORD_MAX_LEN <? zlen sd) with true by (symmetry; apply Z.ltb_lt; unfold ENC_RECORD_MAX_LEN; lia). split; [reflexivity|exact O].
Qed.
Lemma long_record m s p g c r : client_new m s p g = (Ok tt, c) -> healthy (writer_new p) -> zlen (rc_fragment r) <= 16384 + 2048 - 16 ->
  exists ss c' log, reached m s g (Complete ss) /\ do_api m (A_record r) c = (Ok V_done, c') /\ w_log (c_writer c') = log ++ [
    (rfc_nonce (iv_client (s_keys ss)) 1, rc_fragment r, rfc_ad 1 (rc_type r) (rc_major r) (rc_minor r) (zlen (rc_fragment r)),
     aead_seal (k_client (s_keys ss)) (rfc_nonce (iv_client (s_keys ss)) 1) (rfc_ad 1 (rc_type r) (rc_major r) (rc_minor r) (zlen (rc_fragment r))) (rc_fragment r))] /\
    w_out (c_writer c') = w_out (c_writer c) ++ wire (rc_type r) (rc_major r) (rc_minor r)
      (aead_seal (k_client (s_keys ss)) (rfc_nonce (iv_client (s_keys ss)) 1) (rfc_ad 1 (rc_type r) (rc_major r) (rc_minor r) (zlen (rc_fragment r))) (rc_fragment r)).
Proof.
  intros E H Hr. apply ready_to_write in E as (ss & R & W & Hh). destruct (record_sent m r _ _ _ _ W (Hh H) ltac:(lia) Hr) as (w' & Ew & O & L).
  exists ss, (Client (c_reader c) w' (c_rng c) (c_buf c)), (w_log (c_writer c)). split; [exact R|]. split; [|split; [exact L|exact O]].
  cbn [do_api]. rewrite fmap_run. unfold on_writer. rewrite Ew. reflexivity.
Qed.
Definition long_frag : bytes := repeat x00 (Z.to_nat 16385).
Lemma long_frag_length : zlen long_frag = 16385.
Proof. unfold long_frag, zlen. rewrite repeat_length. lia. Qed.
Lemma overlong m : exists s g c r c', client_new m s [] g = (Ok tt, c) /\ do_api m (A_record r) c = (Ok V_done, c') /\
  exists e, In e (w_log (c_writer c')) /\ 16384 < zlen (log_plain e).
Proof.
  destruct (plain_run m (fun _ => [])) as (s & g & ss & c & E & _). destruct (long_record m s [] g c (Rec ApplicationDataTy x03 x03 long_frag) E) as (ss' & c' & log & _ & D & L & _).
  - constructor.
  - cbn [rc_fragment]. rewrite long_frag_length. lia.
  - exists s, g, c, (Rec ApplicationDataTy x03 x03 long_frag), c'. split; [exact E|]. split; [exact D|]. eexists. rewrite L. split; [apply in_or_app; right; left; reflexivity|].
    unfold log_plain. cbn [fst snd rc_fragment]. rewrite long_frag_length. lia.
Qed.
