(** C109: when construction panics, and where the two builds part: whole constructions. *)
From Verif Require Import Spec_Crash P_Util P_Codec P_CodecProps P_RecordW P_RecordR P_Record P_Record2 P_Aead P_Ecdhe P_Halt P_Client P_Client2 P_App P_App2 P_Panic P_Client3 P_Fault P_Client4 P_Client5 P_Pending P_Open P_Eof P_Accept P_Receive P_Build P_Twice P_Limbs P_P256X P_Scalar P_Decode256 P_Other2 P_Crash.
From Coq Require Import ZifyBool ZifyNat ZifyN.
Local Open Scope list_scope.
Local Open Scope Z_scope.
#[local] Opaque SHA256 HMAC aead_seal aead_decrypt aead_encrypt compute_keys PRF nmul enc from_uncompressed_bytes p256 excess e_ske.

(** ** Records that burst *)
Lemma fetch_panic key iv k bs v' rest : fetch (Sealed key iv k) bs Panic v' rest <->
  v' = Sealed key iv k /\ exists t maj min p f, bs = wire t maj min f ++ rest /\ zlen f <= 18432 /\ protects key iv k t maj min p f /\ 16384 < zlen p.
Proof.
  split.
  - intros F. inversion F as [| | | | |v0 t maj min f bs0 v1 L O]; subst. inversion O as [| | |key0 iv0 k0 t0 maj0 min0 f0 p P Lp|]; subst. split; [reflexivity|]. exists t, maj, min, p, f. auto.
  - intros (-> & t & maj & min & p & f & -> & L & P & Lp). eapply G_panic; [exact L|]. eapply O_overlong; eassumption.
Qed.
Lemma clear_no_panic v pend bs x v' p b : comes v pend bs x v' p b -> v = Clear -> x <> Panic.
Proof.
  induction 1 as [| |v pend bs e v' bs' N F|v pend bs v' bs' N F|v pend bs t pl v' bs' x N F K|v pend bs v' bs' N F|v pend bs pl v1 bs1 x v' pend' bs' N F Np C IH]; intros E; try discriminate.
  - exfalso. subst v. inversion F as [| | | | |v0 t maj min f bs0 v1 L O]; subst. inversion O.
  - destruct K; discriminate.
  - apply IH. subst v. inversion F as [| | |v0 t maj min f bs0 p0 v2 L O| |]; subst. inversion O; reflexivity.
Qed.
Lemma bursts_sound key iv k pend bs : bursts key iv k pend bs -> exists v p b, comes (Sealed key iv k) pend bs Panic v p b.
Proof.
  induction 1 as [k t maj min p f pend rest N L P Lp|k maj min p f pend rest N L P Lp B (v & q & b & IH)].
  - exists (Sealed key iv k), pend, rest. apply N_panic; [exact N|]. apply fetch_panic. split; [reflexivity|]. exists t, maj, min, p, f. auto.
  - exists v, q, b. eapply N_more; [exact N| | |exact IH].
    + eapply G_record; [exact L|]. apply O_sealed; [exact P|lia].
    + intros ->. change (zlen []) with 0 in Lp. lia.
Qed.
Lemma bursts_complete v pend bs x v' p b : comes v pend bs x v' p b -> forall key iv k, v = Sealed key iv k -> x = Panic -> bursts key iv k pend bs.
Proof.
  induction 1 as [| |v pend bs e v' bs' N F|v pend bs v' bs' N F|v pend bs t pl v' bs' x N F K|v pend bs v' bs' N F|v pend bs pl v1 bs1 x v' pend' bs' N F Np C IH]; intros key iv k E X; try discriminate X.
  - subst v. apply fetch_panic in F as (_ & t & maj & min & q & f & -> & L & P & Lp). eapply Burst; eassumption.
  - subst x. inversion K.
  - subst v x. inversion F as [| | |v0 t maj min f bs0 p0 v2 L O| |]; subst. inversion O as [| |key0 iv0 k0 t0 maj0 min0 f0 p1 P Lp| |]; subst.
    eapply Burst_later; [exact N|exact L|exact P| |apply IH; reflexivity]. split; [|exact Lp]. destruct pl; [congruence|]. rewrite zlen_cons. pose proof (zlen_nonneg pl). lia.
Qed.
Lemma asks_panic v pend bs v' p b : asks v pend bs Panic v' p b <-> comes v pend bs Panic v' p b.
Proof.
  split; [|intros C; exists Panic; auto]. intros (y & C & E). destruct y as [[]| | |]; try discriminate E. exact C.
Qed.

(** ** Construction *)
Lemma sends_read bs x y : sends_point bs x y <-> exists sh certs skx k more pend rest, given bs sh certs skx pend rest /\ tls_read i_ske skx = Ok (k, more) /\
  ske_public k = enc x y /\ 0 <= x < 2 ^ 256 /\ 0 <= y < 2 ^ 256.
Proof.
  split.
  - intros (sh & certs & k & more & pend & rest & G & W & D). exists sh, certs, (e_ske k ++ more), k, more, pend, rest. split; [exact G|]. split; [apply read_ske_iff; auto|exact D].
  - intros (sh & certs & skx & k & more & pend & rest & G & R & D). apply read_ske_iff in R as [W ->]. exists sh, certs, k, more, pend, rest. auto.
Qed.
Lemma clear_asks pend bs v p b : ~ asks Clear pend bs Panic v p b.
Proof. intros A. apply asks_panic in A. exact (clear_no_panic _ _ _ _ _ _ _ A eq_refl eq_refl). Qed.
Theorem panics_iff m g bs : breaks_down m g bs <-> exists st, building m g bs Panic st.
Proof.
  split.
  - intros [L|x y L P W O NE|x y L P -> O|ss pend rest p1 b1 P C B].
    + exists Nothing. apply B_tape; exact L.
    + apply sends_read in P as (sh & certs & skx & k & more & pend & rest & G & R & D & Hx & Hy). exists (Hello (firstn 32 g)). apply B_first; [exact L|].
      destruct (proj2 (keys_panic m skx (skipn 32 g))) as (g' & K); [exists k, more, x, y; auto 10|]. eapply S_crash; eassumption.
    + apply sends_read in P as (sh & certs & skx & k & more & pend & rest & G & R & D & Hx & Hy). exists (Hello (firstn 32 g)). apply B_first; [exact L|].
      destruct (proj2 (keys_panic Debug skx (skipn 32 g))) as (g' & K); [exists k, more, x, y; auto 10|]. eapply S_crash; eassumption.
    + apply bursts_sound in B as (v & p & b & B). exists (Complete ss). eapply B_finished; [exact P|exact C|apply asks_panic; exact B|apply T_panic].
  - intros (st & B). apply building_parts in B as [(L & _)|[(L & F & _)|(ss & pend & rest & P & A & _)]]; [apply Crash_hello; exact L| |].
    + inversion F as [x y v p b A T|sh p b A O|sh p1 b1 x y v p b G A T|sh certs p2 b2 x y v p b S0 A T|sh certs skx p3 b3 e g' G K|sh certs skx p3 b3 g' G K|sh certs skx p3 b3 kp g' x y v p b G K A T]; subst;
        try (inversion T; subst; destruct (clear_asks _ _ _ _ _ A)).
      destruct (proj1 (keys_panic m skx (skipn 32 g)) (ex_intro _ g' K)) as (k & more & x & y & R & D & Hx & Hy & C).
      assert (P : sends_point bs x y) by (apply sends_read; exists sh, certs, skx, k, more, p3, b3; auto 10).
      destruct C as [[E O]|(O & W & NE)]; [eapply Crash_point; eassumption|eapply Crash_secret; eassumption].
    + inversion A as [x v p b C N E|p1 b1 x y v p b C As T|p1 b1 d v p b C As N|p1 b1 v p b C As]; subst.
      * destruct x as [[]| | |]; try discriminate E. destruct (clear_no_panic _ _ _ _ _ _ _ C eq_refl eq_refl).
      * inversion T; subst. eapply Crash_record; [exact P|exact C|]. apply asks_panic in As. exact (bursts_complete _ _ _ _ _ _ _ As _ _ _ eq_refl eq_refl).
Qed.
Theorem breaks_down_iff m s p g : healthy (writer_new p) -> clean s -> zlen (stream s) < 2 ^ 64 -> (fst (client_new m s p g) = Panic <-> breaks_down m g (stream s)).
Proof.
  intros H C R. rewrite panics_iff. split.
  - intros E. destruct (client_new m s p g) as [x c] eqn:N. cbn [fst] in E. subst x.
    destruct (proj1 (building_iff m s p g Panic _ H C R) (ex_intro _ c (conj N eq_refl))) as (st & B & _). eauto.
  - intros (st & B). destruct (building_sound m s p g Panic st H C R B) as (_ & c & E & _). rewrite E. reflexivity.
Qed.

(** ** The two builds *)
Lemma parting_debug g bs : parting g bs -> building Debug g bs Panic (Hello (firstn 32 g)).
Proof.
  intros (L & x & y & P & O). apply sends_read in P as (sh & certs & skx & k & more & pend & rest & G & R & D & Hx & Hy). apply B_first; [exact L|].
  destruct (proj2 (keys_panic Debug skx (skipn 32 g))) as (g' & K); [exists k, more, x, y; auto 10|]. eapply S_crash; eassumption.
Qed.
#[local] Transparent enc.
Lemma enc_inj x y x' y' : 0 <= x < 2 ^ 256 -> 0 <= y < 2 ^ 256 -> 0 <= x' < 2 ^ 256 -> 0 <= y' < 2 ^ 256 -> enc x y = enc x' y' -> x = x' /\ y = y'.
Proof.
  intros Hx Hy Hx' Hy' E. unfold enc in E. apply (f_equal (@tl byte)) in E. cbn [tl] in E.
  assert (E1 : be 32 x = be 32 x'). { apply (f_equal (firstn 32)) in E. rewrite !firstn_app, !firstn_all2, !be_length in E by (rewrite be_length; lia). change (32 - 32)%nat with 0%nat in E. rewrite !firstn_O, !app_nil_r in E. exact E. }
  rewrite E1 in E. apply app_inv_head in E. split; eapply be_inj; try eassumption; assumption.
Qed.
#[local] Opaque enc.
Lemma sends_once bs x y x' y' : zlen bs < 2 ^ 64 -> sends_point bs x y -> sends_point bs x' y' -> x = x' /\ y = y'.
Proof.
  intros R A B. apply sends_read in A as (sh & certs & skx & k & more & pend & rest & G & E & D & Hx & Hy). apply sends_read in B as (sh' & certs' & skx' & k' & more' & pend' & rest' & G' & E' & D' & Hx' & Hy').
  destruct (given_same _ _ _ _ _ _ _ _ _ _ _ R G G') as (_ & _ & <- & _). rewrite (read_once _ _ _ _ _ E E') in D. rewrite D in D'. exact (enc_inj _ _ _ _ Hx Hy Hx' Hy' D').
Qed.
Lemma parting_dec g bs : zlen bs < 2 ^ 64 -> parting g bs \/ ~ parting g bs.
Proof.
  intros R. destruct (building_total Debug g bs R) as (z & st & B).
  assert (N : z <> Panic -> ~ parting g bs). { intros Nz Q. apply Nz. exact (proj1 (building_once _ _ _ _ _ _ _ R B (parting_debug _ _ Q))). }
  destruct z as [u|e| |]; try (right; apply N; discriminate). destruct (proj2 (panics_iff Debug g bs) (ex_intro _ st B)) as [L|x y L P W O NE|x y L P _ O|ss pend rest p1 b1 P C Bu].
  - right. intros (L' & _). lia.
  - right. intros (_ & x' & y' & P' & O'). destruct (sends_once _ _ _ _ _ R P P') as [<- _]. exact (O eq_refl O').
  - left. split; [exact L|]. exists x, y. auto.
  - right. intros Q. apply bursts_sound in Bu as (v & p & b & Bu).
    assert (B2 : building Debug g bs Panic (Complete ss)) by (eapply B_finished; [exact P|exact C|apply asks_panic; exact Bu|apply T_panic]).
    destruct (building_once _ _ _ _ _ _ _ R B2 (parting_debug _ _ Q)) as [_ X]. discriminate X.
Qed.
(** without it nothing depends on the build *)
Lemma keys_alike g bs sh certs skx p b z g' : (32 <= length g)%nat -> given bs sh certs skx p b -> compute_keys Debug skx (skipn 32 g) = (z, g') ->
  parting g bs \/ exists g'', compute_keys Release skx (skipn 32 g) = (z, g'').
Proof.
  intros L G K. destruct (keys_builds skx (skipn 32 g)) as [(k & more & x & y & R & D & Hx & Hy & O)|E].
  - left. split; [exact L|]. exists x, y. split; [|exact O]. apply sends_read. exists sh, certs, skx, k, more, p, b. auto.
  - right. rewrite K in E. destruct (compute_keys Release skx (skipn 32 g)) as [z' g'']. cbn [fst] in E. subst z'. eauto.
Qed.
Lemma builds_alike g bs x st : building Debug g bs x st -> parting g bs \/ building Release g bs x st.
Proof.
  intros B. apply building_parts in B as [(L & -> & ->)|[(L & F & ->)|(ss & pend & rest & P & A & ->)]].
  - right. apply B_tape; exact L.
  - inversion F as [x0 y v p b A T|sh p b A O|sh p1 b1 x0 y v p b G A T|sh certs p2 b2 x0 y v p b S0 A T|sh certs skx p3 b3 e g' G K|sh certs skx p3 b3 g' G K|sh certs skx p3 b3 kp g' x0 y v p b G K A T]; subst.
    + right. apply B_first; [exact L|]. eapply S_hello; eassumption.
    + right. apply B_first; [exact L|]. eapply S_parameters; eassumption.
    + right. apply B_first; [exact L|]. eapply S_certificate; eassumption.
    + right. apply B_first; [exact L|]. eapply S_exchange; eassumption.
    + destruct (keys_alike _ _ _ _ _ _ _ _ _ L G K) as [Q|(g'' & K')]; [left; exact Q|right]. apply B_first; [exact L|]. eapply S_keys; eassumption.
    + destruct (keys_alike _ _ _ _ _ _ _ _ _ L G K) as [Q|(g'' & K')]; [left; exact Q|right]. apply B_first; [exact L|]. eapply S_crash; eassumption.
    + destruct (keys_alike _ _ _ _ _ _ _ _ _ L G K) as [Q|(g'' & K')]; [left; exact Q|right]. apply B_first; [exact L|]. eapply S_done; eassumption.
  - destruct P as (L & Cr & p3 & b3 & g' & G & K & As). destruct (keys_alike _ _ _ _ _ _ _ _ _ L G K) as [Q|(g'' & K')]; [left; exact Q|right].
    apply building_parts. right. right. exists ss, pend, rest. split; [|auto]. split; [exact L|]. split; [exact Cr|]. exists p3, b3, g''. auto.
Qed.
Theorem builds_part s p g : healthy (writer_new p) -> clean s -> zlen (stream s) < 2 ^ 64 ->
  (parting g (stream s) /\ exists c, client_new Debug s p g = (Panic, c) /\ w_out (c_writer c) = flight_hello (firstn 32 g)) \/
  (~ parting g (stream s) /\ exists x c c', client_new Debug s p g = (x, c) /\ client_new Release s p g = (x, c') /\ w_out (c_writer c) = w_out (c_writer c')).
Proof.
  intros H C R. destruct (parting_dec g (stream s) R) as [Q|Q]; [left|right]; (split; [exact Q|]).
  - destruct (building_sound Debug s p g _ _ H C R (parting_debug _ _ Q)) as (_ & c & E & O). exists c. split; [exact E|]. rewrite O. unfold all_sent. cbn [stage_out]. apply app_nil_r.
  - destruct (building_total Debug g (stream s) R) as (x & st & B). destruct (builds_alike _ _ _ _ B) as [Q'|B']; [contradiction|].
    destruct (building_sound Debug s p g _ _ H C R B) as (_ & c & E & O). destruct (building_sound Release s p g _ _ H C R B') as (_ & c' & E' & O').
    exists x, c, c'. split; [exact E|]. split; [exact E'|]. congruence.
Qed.
