(** C89: the byte streams with which the client connects. *)
From Verif Require Import Spec_Accept Spec_Client4 P_Util P_Codec P_CodecProps P_RecordW P_RecordR P_Record P_Record2 P_Aead P_Ecdhe P_Halt P_Client P_Client2 P_App P_App2 P_Panic P_Client3 P_Client4 P_Client5 P_Pending P_Open.
From Coq Require Import ZifyBool ZifyNat ZifyN.
Import String.StringSyntax.
Local Open Scope string_scope.
Local Open Scope list_scope.
Local Open Scope Z_scope.
#[local] Opaque SHA256 HMAC aead_seal aead_decrypt aead_encrypt compute_keys PRF nmul.

(** ** Records on the stream *)
Lemma fill_stream s n got s' : fill_exact s n = (Ok got, s') -> stream s = got ++ stream s'.
Proof.
  intros E. destruct (Nat.le_gt_cases n (length (stream s))) as [L|L].
  - destruct (fill_ok s n L) as (s1 & E1 & S1). rewrite E in E1. apply pair_equal_spec in E1 as [E1 ->]. apply Ok_inj in E1 as ->.
    rewrite S1, firstn_skipn. reflexivity.
  - pose proof (fill_err s n L) as X. rewrite E in X. discriminate X.
Qed.
Lemma r_read_stream n r got r' : r_read n r = (Ok got, r') -> stream (r_src r) = got ++ stream (r_src r').
Proof.
  unfold r_read. destruct (fill_exact (r_src r) n) as [y s] eqn:E. intros H. apply pair_equal_spec in H as [-> <-].
  exact (fill_stream _ _ _ _ E).
Qed.
Lemma read_bind_ok {A B} (x : M reader A) (f : A -> M reader B) r b r' : mbind x f r = (Ok b, r') -> exists a r1, x r = (Ok a, r1) /\ f a r1 = (Ok b, r').
Proof. unfold mbind. destruct (x r) as [[a| | |] r1]; try discriminate. eauto. Qed.
Lemma read_record_stream m r rec r' : read_record m r = (Ok rec, r') ->
  exists t maj min frag, rec = Rec t maj min (rc_fragment rec) /\ unprotect t maj min frag r = Ok rec /\ zlen frag <= ENC_RECORD_MAX_LEN /\
    zlen (rc_fragment rec) <= RECORD_MAX_LEN /\ (exists c, r' = set_count (set_src r (r_src r')) c /\ ck m 64 (r_count r + 1) = Ok c) /\
    stream (r_src r) = wire t maj min frag ++ stream (r_src r') /\ all_bytes (r_src r) = wire t maj min frag ++ all_bytes (r_src r').
Proof.
  intros E. pose proof (read_record_inv _ _ _ _ E) as (t & maj & min & frag & f & c & -> & Lf & LF & Ab & _ & U & Ec & Er).
  exists t, maj, min, frag. cbn [rc_fragment]. split; [reflexivity|]. split; [exact U|]. split; [exact LF|]. split; [exact Lf|]. split; [eauto|]. split; [|exact Ab].
  unfold read_record in E. apply read_bind_ok in E as (g1 & r1 & E1 & E).
  destruct (from_code content_type_code content_type_all (be_val g1)); [|discriminate E].
  apply read_bind_ok in E as (g2 & r2 & E2 & E). apply read_bind_ok in E as (g3 & r3 & E3 & E). apply read_bind_ok in E as (g4 & r4 & E4 & E).
  destruct (ENC_RECORD_MAX_LEN <? be_val g4); [discriminate E|].
  apply read_bind_ok in E as (g5 & r5 & E5 & E). apply read_bind_ok in E as (g6 & r6 & E6 & E). apply read_bind_ok in E as ([] & r7 & E7 & E).
  assert (S5 : r_src r' = r_src r5).
  { cbv [mret] in E. apply pair_equal_spec in E as [_ <-]. apply pair_equal_spec in E6 as [_ <-].
    unfold r_bump in E7. destruct (ck m 64 (r_count r5 + 1)); try discriminate E7. apply pair_equal_spec in E7 as [_ <-]. reflexivity. }
  rewrite S5 in *. clear S5 E E6 E7.
  rewrite (r_read_stream _ _ _ _ E1), (r_read_stream _ _ _ _ E2), (r_read_stream _ _ _ _ E3), (r_read_stream _ _ _ _ E4), (r_read_stream _ _ _ _ E5).
  apply r_read_inv in E1 as (_ & (p1 & A1 & G1) & _), E2 as (_ & (p2 & A2 & G2) & _), E3 as (_ & (p3 & A3 & G3) & _), E4 as (_ & (p4 & A4 & G4) & _), E5 as (_ & (p5 & A5 & G5) & _).
  rewrite (G1 _ eq_refl) in A1. rewrite (G2 _ eq_refl) in A2. rewrite (G3 _ eq_refl) in A3. rewrite (G4 _ eq_refl) in A4. rewrite (G5 _ eq_refl) in A5.
  rewrite A1, A2, A3, A4, A5, !app_assoc in Ab. apply app_inv_tail in Ab. rewrite <- Ab, !app_assoc. reflexivity.
Qed.

(** ** Messages in a buffer *)
Definition none (b : bytes) : Prop := get_message b = (Ok None, b).
Definition whole (b : bytes) (h : handshake) : Prop := exists ty body, zlen body < 2 ^ 24 /\ b = frame ty body /\ hs_read b = Ok (h, []).
Lemma frame_cons ty body : frame ty body = ty :: be 3 (zlen body) ++ body. Proof. reflexivity. Qed.
Lemma whole_get b h rest : whole b h -> get_message (b ++ rest) = (Ok (Some h), rest).
Proof.
  intros (ty & body & L & -> & R). pose proof (zlen_nonneg body). rewrite frame_cons in *.
  rewrite get_message_framed by (lia || reflexivity). rewrite R. reflexivity.
Qed.
Lemma get_whole buf h rest : get_message buf = (Ok (Some h), rest) -> exists b, whole b h /\ buf = b ++ rest.
Proof.
  intros G. apply get_message_inv in G as (body & L & -> & R). exists (frame (z2b (hs_type h)) body).
  split; [|reflexivity]. exists (z2b (hs_type h)), body. split; [exact L|]. split; [reflexivity|].
  apply hs_read_split. exists (hs_type h), (zlen body), body. split; [rewrite be1; reflexivity|]. split; [apply hs_type_range|].
  pose proof (zlen_nonneg body). split; [lia|]. split; [exact R|reflexivity].
Qed.
Lemma whole_enc h : wf_handshake h -> whole (e_handshake h) h.
Proof. intros W. exists (z2b (hs_type h)), (e_hs_body h). split; [apply W|]. split; [reflexivity|exact (hs_read_enc h W)]. Qed.
Lemma none_iff b : none b <-> incomplete b.
Proof.
  split.
  - intros N. destruct (buffer_split b) as [(ty & body & p & q & L & E & Q & ->)|(ty & body & rest & L & ->)]; [exists ty, body, q; auto|].
    exfalso. unfold none in N. rewrite frame_cons in N. pose proof (zlen_nonneg body).
    rewrite get_message_framed in N by (lia || reflexivity). destruct (hs_read _) as [[]| | |]; discriminate N.
  - intros (ty & body & q & L & E & Q). exact (incomplete_kept ty body b q L E Q).
Qed.
Lemma whole_some b h rest : whole b h -> ~ none (b ++ rest).
Proof. intros W N. unfold none in N. rewrite (whole_get _ _ _ W) in N. discriminate N. Qed.
(** a beginning of a message is the whole or incomplete *)
Lemma begins F h buf more tail : whole F h -> buf ++ more = F ++ tail -> (exists b, buf = F ++ b /\ b ++ more = tail) \/ none buf.
Proof.
  intros (ty & body & L & -> & R) E. destruct (Nat.le_gt_cases (length (frame ty body)) (length buf)) as [G|G].
  - left. exists (skipn (length (frame ty body)) buf).
    assert (X : firstn (length (frame ty body)) buf = frame ty body).
    { apply (f_equal (firstn (length (frame ty body)))) in E. rewrite !firstn_app, Nat.sub_diag, firstn_all in E.
      replace (length (frame ty body) - length buf)%nat with 0%nat in E by lia. cbn [firstn] in E. rewrite !app_nil_r in E. exact E. }
    assert (Y : buf = frame ty body ++ skipn (length (frame ty body)) buf) by (rewrite <- X at 1; symmetry; apply firstn_skipn).
    split; [exact Y|]. rewrite Y, <- app_assoc in E. apply app_inv_head in E. exact E.
  - right. apply none_iff. exists ty, body, (skipn (length buf) (frame ty body)). split; [exact L|].
    assert (X : firstn (length buf) (frame ty body) = buf).
    { apply (f_equal (firstn (length buf))) in E. rewrite !firstn_app, Nat.sub_diag, firstn_all in E.
      replace (length buf - length (frame ty body))%nat with 0%nat in E by lia. cbn [firstn] in E. rewrite !app_nil_r in E. symmetry. exact E. }
    split; [rewrite <- (firstn_skipn (length buf) (frame ty body)) at 1; rewrite X; reflexivity|]. intros N. apply (f_equal (@length byte)) in N. rewrite skipn_length in N. change (length (@nil byte)) with 0%nat in N. lia.
Qed.
Lemma set_buf_twice r a b : set_buf (set_buf r a) b = set_buf r b. Proof. reflexivity. Qed.

(** ** Consecutive handshake records, as the reader sees them *)
Inductive supply (m : mode) : reader -> list (byte * byte * bytes) -> reader -> Prop :=
| Su_nil r : supply m r [] r
| Su_cons r r1 r' maj min f l : f <> [] -> read_record m r = (Ok (Rec HandshakeTy maj min f), r1) -> supply m r1 l r' ->
    supply m r ((maj, min, f) :: l) r'.
Lemma supply_app m l1 l2 : forall r r1 r2, supply m r l1 r1 -> supply m r1 l2 r2 -> supply m r (l1 ++ l2) r2.
Proof. induction l1 as [|[[a b] f] l1 IH]; intros r r1 r2 H1 H2; inversion H1; subst; [exact H2|]. cbn [app]. econstructor; eauto. Qed.
Lemma supply_buf m l b : forall r r', supply m r l r' -> supply m (set_buf r b) l (set_buf r' b).
Proof.
  induction l as [|[[x y] f] l IH]; intros r r' H; inversion H; subst; [constructor|].
  econstructor; [assumption| |apply IH; eassumption].
  rewrite read_record_blind. match goal with E : read_record m r = _ |- _ => rewrite E end. reflexivity.
Qed.
Lemma record_buf m r rec r1 : read_record m r = (Ok rec, r1) -> r_buf r1 = r_buf r.
Proof. intros E. apply read_record_inv in E as (t & maj & min & frag & f & c & _ & _ & _ & _ & _ & _ & _ & Er). rewrite Er. reflexivity. Qed.
Lemma supply_same m l : forall r r', supply m r l r' -> r_buf r' = r_buf r /\ r_dec r' = r_dec r /\ r_iv r' = r_iv r.
Proof.
  induction l as [|[[a b] f] l IH]; intros r r' H; inversion H; subst; [auto|].
  destruct (IH _ _ ltac:(eassumption)) as (A & B & C). match goal with E : read_record m r = _ |- _ => rewrite A, B, C, (record_buf _ _ _ _ E); destruct (read_record_dec _ _ _ _ E) as [-> ->]; auto end.
Qed.
Lemma supply_rebuf m l b r r' : supply m (set_buf r b) l r' -> supply m r l (set_buf r' (r_buf r)) /\ r_buf r' = b.
Proof.
  intros H. split; [|destruct (supply_same _ _ _ _ H) as (A & _); exact A].
  apply (supply_buf m l (r_buf r)) in H. rewrite set_buf_twice, set_buf_id in H. exact H.
Qed.

(** *** backwards: what a successful call has read *)
Lemma pull_back m : forall r x r', none (r_buf r) -> pull m r = (Ok x, r') ->
  (forall h, x = HandshakeMessage h -> exists l maj min f r1, supply m r (l ++ [(maj, min, f)]) r1 /\ r' = set_buf r1 (r_buf r') /\
     none (r_buf r ++ contents l) /\ get_message (r_buf r ++ contents (l ++ [(maj, min, f)])) = (Ok (Some h), r_buf r')) /\
  (x = ChangeCipherSpecMessage -> exists l maj min r1 r2, supply m r l r1 /\ read_record m r1 = (Ok (Rec ChangeCipherSpecTy maj min [x01]), r2) /\
     r' = set_buf r2 (r_buf r') /\ r_buf r' = r_buf r ++ contents l /\ none (r_buf r')).
Proof.
  intros r. pattern r. apply (pull_ind m). clear r. intros r IH x r' N E. rewrite pull_eq in E. unfold mbind in E.
  destruct (read_record m r) as [[rec| | |] r1] eqn:R; try discriminate E.
  pose proof (record_buf _ _ _ _ R) as B1.
  destruct (handle_record rec r1) as [[[msg|]| | |] r2] eqn:H; try discriminate E.
  - cbv [mret] in E. apply pair_equal_spec in E as [E ->]. apply Ok_inj in E as ->. split.
    + intros h ->. pose proof (handle_message _ _ _ _ H) as (T & S & G). destruct rec as [t maj min f]. cbn [rc_type rc_fragment] in *. subst t.
      assert (Nf : f <> []) by (intros ->; rewrite app_nil_r, B1 in G; unfold none in N; rewrite N in G; discriminate G).
      exists [], maj, min, f, r1. split; [econstructor; [exact Nf|exact R|constructor]|]. split; [exact S|].
      unfold contents. cbn [map concat app snd]. rewrite !app_nil_r. split; [exact N|]. rewrite <- B1. exact G.
    + intros ->. pose proof (handle_ccs _ _ _ H) as ->. destruct rec as [t maj min f]. unfold handle_record in H. cbn [rc_type rc_fragment] in H.
      exists [], maj, min, r, r1. split; [constructor|].
      assert (X : t = ChangeCipherSpecTy /\ f = [x01]).
      { destruct t; cbv [mret mfail] in H.
        - destruct f as [|b [|]]; try discriminate H. destruct (Z.eqb_spec (b2z b) 1) as [Eb|]; [|discriminate H]. split; [reflexivity|].
          f_equal. apply b2z_inj. exact Eb.
        - destruct f as [|a [|d q]]; try discriminate H. destruct (from_code alert_level_code alert_level_all (b2z a)), (from_code alert_desc_code alert_desc_all (b2z d)); discriminate H.
        - destruct f as [|b q]; [discriminate H|]. unfold mbind, r_add_record, r_get_message in H. destruct (get_message _) as [[[]| | |] ]; discriminate H.
        - discriminate H. }
      destruct X as [-> ->]. split; [exact R|]. split; [symmetry; apply set_buf_id|]. unfold contents. cbn [map concat]. rewrite app_nil_r, B1. split; [reflexivity|exact N].
  - pose proof (handle_none _ _ _ H) as (T & S & G). destruct rec as [t maj min f]. cbn [rc_type rc_fragment] in *. subst t.
    assert (Nf : f <> []) by (intros ->; unfold handle_record in H; cbn [rc_type rc_fragment] in H; discriminate H).
    assert (B2 : r_buf r2 = r_buf r ++ f) by (rewrite S, <- B1; reflexivity).
    destruct (IH _ _ _ eq_refl H x r' G E) as [I1 I2]. rewrite S in I1, I2. split.
    + intros h Eh. destruct (I1 h Eh) as (l & maj' & min' & f' & r3 & Su & Sr & Nn & Gg).
      apply supply_rebuf in Su as [Su _]. cbn [set_buf r_buf] in Nn, Gg. rewrite B1 in *.
      exists ((maj, min, f) :: l), maj', min', f', (set_buf r3 (r_buf r)).
      split; [cbn [app]; econstructor; [exact Nf|exact R|exact Su]|]. split; [rewrite set_buf_twice; exact Sr|].
      unfold contents in *. cbn [app map concat snd]. rewrite !app_assoc. rewrite <- !app_assoc in *. split; [exact Nn|exact Gg].
    + intros Ex. destruct (I2 Ex) as (l & maj' & min' & r3 & r4 & Su & Rc & Sr & Bb & Nn). apply supply_rebuf in Su as [Su B3]. cbn [set_buf r_buf] in Bb. rewrite B1 in *.
      exists ((maj, min, f) :: l), maj', min', (set_buf r3 (r_buf r)), (set_buf r4 (r_buf r)).
      split; [econstructor; [exact Nf|exact R|exact Su]|]. split; [rewrite read_record_blind, Rc; reflexivity|]. split; [rewrite set_buf_twice; exact Sr|].
      split; [|exact Nn]. unfold contents in *. cbn [map concat snd]. rewrite app_assoc. exact Bb.
Qed.
Lemma read_back m r h r' : read_handshake m r = (Ok h, r') ->
  exists l r1, supply m r l r1 /\ r' = set_buf r1 (r_buf r') /\ get_message (r_buf r ++ contents l) = (Ok (Some h), r_buf r') /\
    (none (r_buf r) -> none (r_buf r ++ contents (removelast l))).
Proof.
  intros E. unfold read_handshake, mbind in E. destruct (read_message m r) as [[msg| | |] r1] eqn:R; try discriminate E. destruct msg; try discriminate E.
  cbv [mret] in E. apply pair_equal_spec in E as [E ->]. apply Ok_inj in E as ->.
  rewrite read_message_eq in R. destruct (get_message (r_buf r)) as [[[h''|]| | |] b] eqn:G; try discriminate R.
  - apply pair_equal_spec in R as [E <-]. apply Ok_inj in E. injection E as ->. exists [], r. split; [constructor|]. split; [reflexivity|].
    unfold contents. cbn [map concat removelast]. rewrite app_nil_r. split; [exact G|]. auto.
  - pose proof (get_message_none _ _ G) as ->. rewrite set_buf_id in R.
    destruct (pull_back m r _ _ G R) as [P _]. destruct (P h eq_refl) as (l & maj & min & f & r2 & Su & Sr & N & Gg).
    exists (l ++ [(maj, min, f)]), r2. split; [exact Su|]. split; [exact Sr|]. split; [exact Gg|]. intros _. rewrite removelast_last. exact N.
Qed.
Lemma ccs_back m r r' : read_change_cipher_spec m r = (Ok tt, r') ->
  exists l maj min r1 r2, supply m r l r1 /\ read_record m r1 = (Ok (Rec ChangeCipherSpecTy maj min [x01]), r2) /\
     r' = set_buf r2 (r_buf r') /\ r_buf r' = r_buf r ++ contents l /\ none (r_buf r').
Proof.
  unfold read_change_cipher_spec, mbind. destruct (read_message m r) as [[msg| | |] r1] eqn:R; try discriminate. destruct msg; try discriminate.
  cbv [mret]. intros E. apply pair_equal_spec in E as [_ <-].
  rewrite read_message_eq in R. destruct (get_message (r_buf r)) as [[[h''|]| | |] b] eqn:G; try discriminate R.
  pose proof (get_message_none _ _ G) as ->. rewrite set_buf_id in R.
  destruct (pull_back m r _ _ G R) as [_ P]. exact (P eq_refl).
Qed.
(** *** streams of supplied records *)
Definition legal_run (l : list (byte * byte * bytes)) : Prop := Forall (fun x => legal_fragment (snd x)) l.
Lemma legal_of f : f <> [] -> zlen f <= RECORD_MAX_LEN -> legal_fragment f.
Proof. intros N L. unfold legal_fragment, RECORD_MAX_LEN in *. destruct f; [contradiction|]. rewrite zlen_cons in *. pose proof (zlen_nonneg f). lia. Qed.
Lemma clear_record m r t maj min f r1 : r_dec r = None -> read_record m r = (Ok (Rec t maj min f), r1) ->
  stream (r_src r) = wire t maj min f ++ stream (r_src r1) /\ zlen f <= RECORD_MAX_LEN.
Proof.
  intros D E. apply read_record_stream in E as (t' & maj' & min' & frag & Er & U & _ & L & _ & S & _). cbn [rc_fragment] in *.
  injection Er as <- <- <-. unfold unprotect, record_new in U. rewrite D in U. destruct (_ : bool) in U; [discriminate U|]. apply Ok_inj in U. injection U as <-. auto.
Qed.
Lemma clear_back m l : forall r r', r_dec r = None -> supply m r l r' -> legal_run l /\ stream (r_src r) = clear_run l ++ stream (r_src r').
Proof.
  induction l as [|[[maj min] f] l IH]; intros r r' D H; inversion H as [|? r1 ? ? ? ? ? Nf E S]; subst; [split; [constructor|reflexivity]|].
  destruct (clear_record _ _ _ _ _ _ _ D E) as [S1 L1]. destruct (read_record_dec _ _ _ _ E) as [D1 _].
  destruct (IH _ _ (eq_trans D1 D) S) as [Lg S2]. split; [constructor; [exact (legal_of _ Nf L1)|exact Lg]|].
  unfold clear_run in *. cbn [map concat fst snd]. rewrite S1, S2, app_assoc. reflexivity.
Qed.
Lemma record_stream2 m r rec r' w : read_record m r = (Ok rec, r') -> all_bytes (r_src r) = w ++ all_bytes (r_src r') -> stream (r_src r) = w ++ stream (r_src r').
Proof.
  intros E A. apply read_record_stream in E as (t & maj & min & frag & _ & _ & _ & _ & _ & S & A'). rewrite A' in A. apply app_inv_tail in A. rewrite <- A. exact S.
Qed.
Lemma sealed_back m key iv l : forall k r r', keyed m r key iv k -> k + left r < 2 ^ 64 -> supply m r l r' ->
  exists bs, sealed_run key iv k (map snd l) bs /\ Forall legal_fragment (map snd l) /\ stream (r_src r) = bs ++ stream (r_src r') /\ keyed m r' key iv (k + zlen l).
Proof.
  induction l as [|[[maj min] f] l IH]; intros k r r' Kd Hk H; inversion H as [|? r1 ? ? ? ? ? Nf E S]; subst.
  - exists []. split; [constructor|]. split; [constructor|]. split; [reflexivity|]. change (zlen []) with 0. rewrite Z.add_0_r. exact Kd.
  - assert (Hl : 1 <= left r) by (apply read_record_inv in E as (t & mj & mn & frag & f' & c & _ & _ & _ & _ & Sz & _); unfold left; lia).
    destruct (keyed_record_ok _ _ _ _ _ _ _ Kd ltac:(lia) E) as (t & mj & mn & p & Er & B & Kd1 & L1 & Ab). injection Er as <- <- <- <-.
    destruct (IH (k + 1) r1 r' Kd1 ltac:(lia) S) as (bs & SR & Lg & S2 & Kd2).
    pose proof (record_stream2 _ _ _ _ _ E Ab) as S1.
    apply read_record_stream in E as (? & ? & ? & ? & _ & _ & _ & Lf & _). cbn [rc_fragment] in Lf.
    eexists. cbn [map snd]. split; [constructor; exact SR|]. split; [constructor; [exact (legal_of _ Nf Lf)|exact Lg]|].
    split; [rewrite S1, S2, app_assoc; reflexivity|]. rewrite zlen_cons. replace (k + (1 + zlen l)) with (k + 1 + zlen l) by lia. exact Kd2.
Qed.

(** *** forwards *)
Lemma message_absorbs m r maj min f r1 : none (r_buf r) -> f <> [] -> read_record m r = (Ok (Rec HandshakeTy maj min f), r1) ->
  read_message m r = read_message m (set_buf r1 (r_buf r ++ f)).
Proof.
  intros N Nf E. pose proof (record_buf _ _ _ _ E) as B. rewrite (read_message_eq m r), N, set_buf_id, pull_eq. unfold mbind at 1. rewrite E. unfold mbind at 1.
  change (Rec HandshakeTy maj min f) with (hs_rec maj min f). rewrite handle_hs by exact Nf. rewrite B, (read_message_eq m (set_buf r1 _)). cbn [set_buf r_buf].
  destruct (get_message (r_buf r ++ f)) as [[[h|]| | |] b] eqn:G; reflexivity.
Qed.
Lemma read_here m r F h b : whole F h -> r_buf r = F ++ b -> read_handshake m r = (Ok h, set_buf r b).
Proof. intros W E. unfold read_handshake, mbind. rewrite read_message_eq, E, (whole_get _ _ _ W). reflexivity. Qed.
Lemma read_on m r maj min f r1 : none (r_buf r) -> f <> [] -> read_record m r = (Ok (Rec HandshakeTy maj min f), r1) ->
  read_handshake m r = read_handshake m (set_buf r1 (r_buf r ++ f)) /\ read_change_cipher_spec m r = read_change_cipher_spec m (set_buf r1 (r_buf r ++ f)).
Proof. intros N Nf E. unfold read_handshake, read_change_cipher_spec, mbind. rewrite (message_absorbs _ _ _ _ _ _ N Nf E). auto. Qed.
Lemma legal_ne f : legal_fragment f -> f <> []. Proof. intros [L _] ->. cbn in L. lia. Qed.
(** a reader about to receive the records [l] in the clear, then [rest] *)
Definition facing (r : reader) (l : list (byte * byte * bytes)) (rest : bytes) : Prop :=
  r_dec r = None /\ 0 <= r_count r /\ r_count r + zlen l + 1 < 2 ^ 64 /\ legal_run l /\ stream (r_src r) = clear_run l ++ rest.
Lemma facing_step m r maj min f l rest : facing r ((maj, min, f) :: l) rest ->
  exists r1, read_record m r = (Ok (Rec HandshakeTy maj min f), r1) /\ f <> [] /\ r_iv r1 = r_iv r /\ forall b, facing (set_buf r1 b) l rest.
Proof.
  intros (D & C0 & C & Lg & S). inversion Lg as [|? ? Lf Ls]; subst. cbn [snd] in Lf. rewrite zlen_cons in C. pose proof (zlen_nonneg l).
  unfold clear_run in S. cbn [map concat fst snd] in S. rewrite <- app_assoc in S. destruct Lf as [L0 L].
  destruct (wire_step m r HandshakeTy maj min f f _ S) as (s1 & S1 & _ & R1); try lia. { rewrite D. reflexivity. }
  eexists. split; [exact R1|]. split; [apply legal_ne; split; assumption|]. split; [reflexivity|].
  intros b. unfold facing. cbn [set_buf set_count set_src r_dec r_count r_src]. split; [exact D|]. split; [lia|]. split; [lia|]. split; [exact Ls|exact S1].
Qed.
Lemma clear_forward m F h tail rest : whole F h -> forall l r, facing r l rest -> r_buf r ++ contents l = F ++ tail ->
  exists l2 r', read_handshake m r = (Ok h, r') /\ facing r' l2 rest /\ r_buf r' ++ contents l2 = tail /\ r_iv r' = r_iv r.
Proof.
  intros W. induction l as [|[[maj min] f] l IH]; intros r Fc E; (destruct (begins F h _ _ _ W E) as [(b & Eb & Et)|N];
    [eexists; exists (set_buf r b); split; [exact (read_here m r F h b W Eb)|]; split; [exact Fc|]; split; [exact Et|reflexivity]|]).
  - exfalso. unfold contents in E. cbn [map concat] in E. rewrite app_nil_r in E. rewrite E in N. exact (whole_some _ _ _ W N).
  - destruct (facing_step m _ _ _ _ _ _ Fc) as (r1 & R1 & Nf & V & Fc1). destruct (read_on _ _ _ _ _ _ N Nf R1) as [X _].
    destruct (IH (set_buf r1 (r_buf r ++ f)) (Fc1 _)) as (l2 & r' & A & B & C & D).
    { cbn [set_buf r_buf]. rewrite <- app_assoc. exact E. }
    exists l2, r'. split; [rewrite X; exact A|]. split; [exact B|]. split; [exact C|]. rewrite D. exact V.
Qed.
Lemma none_prefix a b : none (a ++ b) -> none a.
Proof.
  rewrite !none_iff. intros (ty & body & q & L & E & Q). exists ty, body, (b ++ q). split; [exact L|]. rewrite app_assoc. split; [exact E|].
  destruct b; [exact Q|discriminate].
Qed.
Lemma ccs_forward m maj min rest : forall l r, facing r l (wire ChangeCipherSpecTy maj min [x01] ++ rest) -> none (r_buf r ++ contents l) ->
  exists r', read_change_cipher_spec m r = (Ok tt, r') /\ r_buf r' = r_buf r ++ contents l /\ stream (r_src r') = rest /\ r_iv r' = r_iv r /\ r_dec r' = None.
Proof.
  induction l as [|[[a b] f] l IH]; intros r Fc N.
  - destruct Fc as (D & C0 & C & _ & S). unfold contents, clear_run in *. cbn [map concat app] in *. change (zlen (@nil (byte * byte * bytes))) with 0 in C.
    destruct (wire_step m r ChangeCipherSpecTy maj min [x01] [x01] rest S) as (s2 & S2 & _ & R2); try (cbn; lia). { rewrite D. reflexivity. }
    rewrite app_nil_r in *. destruct (ccs_validated m r _ _ N R2 eq_refl) as [[_ E]|[Ne _]]; [|exfalso; apply Ne; reflexivity].
    eexists. unfold read_change_cipher_spec, mbind. rewrite E. split; [reflexivity|]. auto.
  - destruct (facing_step m _ _ _ _ _ _ Fc) as (r1 & R1 & Nf & V & Fc1). destruct (read_on _ _ _ _ _ _ (none_prefix _ _ N) Nf R1) as [_ X].
    unfold contents in *. cbn [map concat snd] in *. rewrite app_assoc in N |- *.
    destruct (IH (set_buf r1 (r_buf r ++ f)) (Fc1 _) N) as (r' & A & B & C & D & G).
    exists r'. split; [rewrite X; exact A|]. split; [exact B|]. split; [exact C|]. split; [rewrite D; exact V|exact G].
Qed.
Lemma seal_len key n ad f : zlen (aead_seal key n ad f) = zlen f + 16. Proof. exact (sealed_len key n ad f). Qed.
Lemma sealed_step m r key iv k maj min f rest : keyed m r key iv k -> k + 1 < 2 ^ 64 -> legal_fragment f ->
  stream (r_src r) = wire HandshakeTy maj min (aead_seal key (rfc_nonce iv k) (rfc_ad k HandshakeTy maj min (zlen f)) f) ++ rest ->
  exists r1, read_record m r = (Ok (Rec HandshakeTy maj min f), r1) /\ keyed m r1 key iv (k + 1) /\ stream (r_src r1) = rest.
Proof.
  intros Kd Hk [L0 L] S. pose proof Kd as (D & V & C & Lk & Li & K0).
  set (ct := aead_seal _ _ _ _) in *. assert (Lc : zlen ct = zlen f + 16) by apply seal_len.
  destruct (record_opens m r key iv k HandshakeTy maj min ct rest Kd Hk ltac:(lia) S) as (r1 & S1 & _ & [(p & Pr & Lp & R & Kd1)|[(p & Pr & Lp & _)|(N & _)]]).
  - assert (p = f) as ->; [|eauto].
    unfold protects in Pr. assert (Q : ct = aead_seal key (rfc_nonce iv k) (rfc_ad k HandshakeTy maj min (zlen f)) f) by reflexivity.
    assert (Lq : zlen p = zlen f) by (pose proof (seal_len key (rfc_nonce iv k) (rfc_ad k HandshakeTy maj min (zlen p)) p) as X; rewrite <- Pr in X; lia).
    rewrite Lq in Pr. assert (Hn : length (rfc_nonce iv k) = 12%nat) by (apply rfc_nonce_length; [exact Li|lia]).
    assert (Fi : fits ct) by (apply fits_record; lia).
    apply (open_iff_seal m _ _ _ ct p Lk Hn Fi) in Pr. apply (open_iff_seal m _ _ _ ct f Lk Hn Fi) in Q. rewrite Pr in Q. apply Ok_inj in Q. exact Q.
  - exfalso. pose proof (seal_len key (rfc_nonce iv k) (rfc_ad k HandshakeTy maj min (zlen p)) p) as X. unfold protects in Pr. rewrite <- Pr in X. lia.
  - exfalso. exact (N f eq_refl).
Qed.
Lemma sealed_forward m key iv F h tail rest : whole F h -> forall k fs bs, sealed_run key iv k fs bs -> forall r, keyed m r key iv k -> k + zlen fs < 2 ^ 64 ->
  Forall legal_fragment fs -> stream (r_src r) = bs ++ rest -> fs <> [] -> r_buf r ++ concat fs = F ++ tail -> none (r_buf r ++ concat (removelast fs)) ->
  exists r', read_handshake m r = (Ok h, r') /\ keyed m r' key iv (k + zlen fs) /\ stream (r_src r') = rest /\ r_buf r' = tail.
Proof.
  intros W k fs bs SR. induction SR as [|k f maj min fs bs SR IH]; intros r Kd Hk Lg S Ne E N; [contradiction|].
  inversion Lg as [|? ? Lf Ls]; subst. rewrite zlen_cons in Hk. pose proof (zlen_nonneg fs). rewrite <- app_assoc in S.
  destruct (sealed_step m r key iv k maj min f _ Kd ltac:(lia) Lf S) as (r1 & R1 & Kd1 & S1).
  destruct (read_on _ _ _ _ _ _ (none_prefix _ _ N) (legal_ne _ Lf) R1) as [X _]. rewrite X. rewrite zlen_cons.
  destruct fs as [|f2 fs].
  - cbn [concat] in E. rewrite app_nil_r in E. inversion SR; subst. eexists. split; [apply (read_here m (set_buf r1 (r_buf r ++ f)) F h tail W); exact E|].
    change (zlen []) with 0. rewrite Z.add_0_r. split; [exact Kd1|]. split; [exact S1|reflexivity].
  - destruct (IH (set_buf r1 (r_buf r ++ f)) Kd1 ltac:(lia) Ls S1 ltac:(discriminate)) as (r' & A & B & C & D).
    { cbn [set_buf r_buf]. rewrite <- app_assoc. exact E. }
    { cbn [set_buf r_buf]. rewrite <- app_assoc. exact N. }
    exists r'. split; [exact A|]. replace (k + (1 + zlen (f2 :: fs))) with (k + 1 + zlen (f2 :: fs)) by lia. auto.
Qed.

(** ** The messages *)
Lemma whole_frame b h : whole b h -> exists body, zlen body < 2 ^ 24 /\ b = frame (z2b (hs_type h)) body /\ hs_read_ty (hs_type h) body = Ok (h, []).
Proof.
  intros W. pose proof (whole_get b h [] W) as G. apply get_message_inv in G as (body & L & E & R). rewrite !app_nil_r in E. exists body. auto.
Qed.
Lemma whole_plain b h : whole b h -> (forall x, h <> client_hello_msg x) -> (forall x, h <> server_hello_msg x) -> wf_handshake h /\ b = e_handshake h.
Proof.
  intros W NC NS. apply whole_frame in W as (body & L & -> & R). apply hs_read_ty_inv in R as [_ H].
  assert (X : wf_hs_body h /\ body = e_hs_body h).
  { destruct h; try exact H; [exfalso; eapply NC; reflexivity | exfalso; eapply NS; reflexivity]. }
  destruct X as [Wb ->]. split; [split; assumption|reflexivity].
Qed.
Lemma whole_hello b sh : wf_suite (sh_suite sh) -> (whole b (server_hello_msg sh) <-> hello_frame sh b).
Proof.
  intros Ws. split.
  - intros W. apply whole_frame in W as (body & L & -> & R). apply hs_read_ty_inv in R as [_ [W H]]. destruct (H Ws) as (junk & -> & J).
    split; [split; assumption|]. exists junk. auto.
  - intros [W (junk & -> & L & J)]. destruct (sh_exts sh) as [x|] eqn:X.
    2:{ rewrite (J eq_refl), app_nil_r in *. apply (whole_enc (server_hello_msg sh)). split; [exact W|exact L]. }
    exists x02, (e_server_hello sh ++ junk). split; [exact L|]. split; [reflexivity|].
    apply hs_read_split. exists 2, (zlen (e_server_hello sh ++ junk)), (e_server_hello sh ++ junk). pose proof (zlen_nonneg (e_server_hello sh ++ junk)).
    split; [reflexivity|]. split; [lia|]. split; [lia|]. split; [|reflexivity].
    change (hs_read_ty 2) with (hs_read_body i_server_hello server_hello_msg). unfold hs_read_body.
    assert (Y : tls_read i_server_hello (e_server_hello sh ++ junk) = Ok (sh, [])).
    { destruct W as ((H1 & H2 & H3) & H4). rewrite X in H3. cbn [wf_exts] in H3. pose proof (zlen_nonneg (sh_session sh)).
      unfold i_server_hello, i_map. cbn [tls_read]. unfold e_server_hello. rewrite X, <- !app_assoc. cbn [e_exts].
      unfold i_pair at 1. cbn [tls_read]. rewrite (co_read _ _ _ codec_version _ _ I). cbn [rbind].
      unfold i_pair at 1. cbn [tls_read]. unfold i_random. rewrite (co_read _ _ _ (codec_array 32) _ _ H1). cbn [rbind].
      unfold i_pair at 1. cbn [tls_read]. rewrite (co_read _ _ _ codec_session); [|unfold in_range; lia]. cbn [rbind].
      unfold i_pair at 1. cbn [tls_read]. rewrite (co_read _ _ _ codec_suite _ _ H4). cbn [rbind].
      unfold i_pair at 1. cbn [tls_read]. rewrite (co_read _ _ _ codec_comp _ _ I). cbn [rbind].
      unfold i_extensions, i_option. cbn [tls_read]. pose proof (co_read _ _ _ codec_ext_vec x junk H3) as Z.
      destruct (e_ext_vec x ++ junk) eqn:Ez; [destruct x; discriminate Ez|]. rewrite Z. cbn [rbind]. destruct sh. cbn in *. subst. reflexivity. }
    rewrite Y. reflexivity.
Qed.

(** ** The theorem *)
Lemma contents_app a b : contents (a ++ b) = contents a ++ contents b. Proof. unfold contents. rewrite map_app, concat_app. reflexivity. Qed.
Lemma clear_run_app a b : clear_run (a ++ b) = clear_run a ++ clear_run b. Proof. unfold clear_run. rewrite map_app, concat_app. reflexivity. Qed.
Lemma first_back m r h r' : r_dec r = None -> read_handshake m r = (Ok h, r') ->
  exists l b, legal_run l /\ whole b h /\ r_buf r ++ contents l = b ++ r_buf r' /\ stream (r_src r) = clear_run l ++ stream (r_src r') /\ r_dec r' = None.
Proof.
  intros D E. pose proof (read_handshake_keys _ _ _ _ E) as [D' _]. apply read_back in E as (l & r1 & Su & Sr & G & _). apply get_whole in G as (b & W & Eb).
  destruct (clear_back _ _ _ _ D Su) as [Lg S]. exists l, b. split; [exact Lg|]. split; [exact W|]. split; [exact Eb|].
  assert (X : r_src r' = r_src r1) by (rewrite Sr; reflexivity). rewrite X. split; [exact S|congruence].
Qed.
Lemma fin_whole ss : whole (e_handshake (s_server_fin ss)) (s_server_fin ss).
Proof. apply whole_enc. destruct (fin_wf (s_master ss) "server finished" (s_msgs ss ++ [s_client_fin ss])) as (W & _). exact W. Qed.
Lemma suits_of m s g ss : reached m s g (Complete ss) -> suits m g ss.
Proof. intros (A & B & _ & C & D & E & F). repeat (split; [assumption|]). exact F. Qed.
Theorem accepted_stream m s p g c : zlen (all_bytes s) + 1 < 2 ^ 64 -> client_new m s p g = (Ok tt, c) ->
  exists ss n, reached m s g (Complete ss) /\ connecting m g ss (stream s) n (r_buf (c_reader c)) (stream (r_src (c_reader c))) /\
    keyed m (c_reader c) (k_server (s_keys ss)) (iv_server (s_keys ss)) n.
Proof.
  intros Room E. pose proof (connected _ _ _ _ _ E) as (ss & RC & An & _). pose proof (suits_of _ _ _ _ RC) as Su.
  destruct (key_block_lengths (s_master ss) (s_cr ss) (sh_random (s_sh ss))) as (_ & K2 & _ & K4). fold (s_keys ss) in K2, K4.
  destruct An as (r4 & Fl & r5 & CC & FN). pose proof Fl as (r1 & r2 & r3 & F1 & F2 & F3 & F4).
  assert (R0 : roomy (reader_new s)).
  { unfold roomy. rewrite left_all. cbn [reader_new r_dec r_count r_src]. split; [reflexivity|]. lia. }
  destruct (roomy_next _ _ _ _ R0 F1) as [Q1 L1], (roomy_next _ _ _ _ Q1 F2) as [Q2 L2], (roomy_next _ _ _ _ Q2 F3) as [Q3 L3], (roomy_next _ _ _ _ Q3 F4) as [Q4 L4].
  destruct Q4 as (_ & Q5 & Q6). destruct (read_ccs_room _ _ _ _ CC) as (L5 & _ & _); [exact Q5|change (left (ived_reader r4 (s_keys ss))) with (left r4); cbn [ived_reader r_count]; lia|].
  destruct (read_ccs_keys _ _ _ _ CC) as [_ V]. cbn [ived_reader r_iv] in V.
  assert (L : later (reader_new s) r5).
  { eapply later_trans; [exact L1|]. eapply later_trans; [exact L2|]. eapply later_trans; [exact L3|]. eapply later_trans; [exact L4|exact L5]. }
  pose proof (later_left _ _ L) as Lf. assert (L0 : left (reader_new s) = zlen (all_bytes s)) by apply left_all.
  set (K := s_keys ss) in *.
  assert (Kd : keyed m (decrypting m r5 K) (k_server K) (iv_server K) 0).
  { unfold keyed, decrypting. cbn [r_dec r_iv r_count]. repeat (split; [assumption || reflexivity|]). lia. }
  clear L1 L2 L3 L4 L5 Q1 Q2 Q3 Q5 Q6 R0.
  destruct (first_back m (reader_new s) _ _ eq_refl F1) as (l1 & b1 & G1 & W1 & B1 & S1 & D1).
  destruct (first_back _ _ _ _ D1 F2) as (l2 & b2 & G2 & W2 & B2 & S2 & D2).
  destruct (first_back _ _ _ _ D2 F3) as (l3 & b3 & G3 & W3 & B3 & S3 & D3).
  destruct (first_back _ _ _ _ D3 F4) as (l4 & b4 & G4 & W4 & B4 & S4 & D4).
  apply ccs_back in CC as (l5 & maj & min & ra & rb & Su5 & Rc & Er5 & B5 & N5).
  assert (D4' : r_dec (ived_reader r4 K) = None) by exact D4.
  destruct (clear_back _ _ _ _ D4' Su5) as [G5 S5]. destruct (supply_same _ _ _ _ Su5) as (_ & Da & _).
  destruct (clear_record _ _ _ _ _ _ _ (eq_trans Da D4') Rc) as [Sc _].
  assert (Sr5 : r_src r5 = r_src rb) by (rewrite Er5; reflexivity). rewrite <- Sr5 in Sc. clear Sr5 Er5.
  apply read_back in FN as (l6 & rc & Su6 & Sr6 & G6 & N6).
  destruct (sealed_back m _ _ l6 0 _ _ Kd ltac:(change (left (decrypting m r5 K)) with (left r5); lia) Su6) as (bs & SR & LG & S6 & Kd6).
  assert (Sr6' : r_src (c_reader c) = r_src rc) by (rewrite Sr6; reflexivity).
  apply get_whole in G6 as (b6 & W6 & B6).
  cbn [decrypting r_buf r_src reader_new ived_reader] in *.
  exists ss, (zlen l6). split; [exact RC|]. split.
  2:{ rewrite Sr6. exact Kd6. }
  split; [exact Su|].
  exists (l1 ++ l2 ++ l3 ++ l4 ++ l5), (b1 ++ b2 ++ b3 ++ b4), (r_buf r5), maj, min, (map snd l6), bs.
  split; [unfold legal_run in *; rewrite !Forall_app; auto|].
  split.
  { exists b1. destruct Su as (_ & _ & _ & Hs & _). split; [apply whole_hello; [rewrite Hs; discriminate|exact W1]|].
    apply whole_plain in W2 as [W2 ->]; [|discriminate|discriminate]. apply whole_plain in W3 as [W3 ->]; [|discriminate|discriminate]. apply whole_plain in W4 as [W4 ->]; [|discriminate|discriminate].
    auto. }
  split.
  { rewrite !contents_app, <- !app_assoc, B5. change (hb_new ++ contents l1) with (contents l1) in B1. rewrite B1, <- app_assoc. f_equal. rewrite app_assoc, B2, <- app_assoc. f_equal.
    rewrite app_assoc, B3, <- app_assoc. f_equal. rewrite app_assoc, B4, <- app_assoc. reflexivity. }
  split; [apply none_iff; exact N5|]. split; [exact LG|]. split; [exact SR|]. split; [unfold zlen; rewrite map_length; reflexivity|].
  split.
  { change (finished (expected_server ss)) with (s_server_fin ss) in W6. apply whole_plain in W6 as [_ W6]; [|discriminate|discriminate]. rewrite <- W6. exact B6. }
  split.
  { apply none_iff. specialize (N6 N5). unfold contents in N6. clear - N6. replace (removelast (map snd l6)) with (map snd (removelast l6)); [exact N6|].
    clear N6. induction l6 as [|x [|y l] IH]; [reflexivity|reflexivity|]. cbn [removelast map] in *. rewrite IH. reflexivity. }
  rewrite S1, S2, S3, S4, S5, Sc, S6, Sr6'. rewrite !clear_run_app, <- !app_assoc. reflexivity.
Qed.

Lemma wire_long t maj min f : 5 <= zlen (wire t maj min f).
Proof. unfold wire, zlen. rewrite !app_length, be_length. cbn [length]. lia. Qed.
Lemma run_long l : zlen l <= zlen (clear_run l).
Proof. induction l as [|x l IH]; [reflexivity|]. unfold clear_run in *. cbn [map concat]. rewrite zlen_cons, zlen_app. match goal with |- context [wire ?t ?a ?b ?f] => pose proof (wire_long t a b f) end. lia. Qed.
Theorem stream_accepted m s p g ss n extra rest : healthy (writer_new p) -> zlen (stream s) < 2 ^ 64 -> connecting m g ss (stream s) n extra rest ->
  reached m s g (Complete ss) /\ exists c, client_new m s p g = (Ok tt, c) /\ r_buf (c_reader c) = extra /\ stream (r_src (c_reader c)) = rest /\
    keyed m (c_reader c) (k_server (s_keys ss)) (iv_server (s_keys ss)) n.
Proof.
  intros H Room (Su & l & msgs & clear & maj & min & fs & sealed & Lg & (hello & HF & Wc & Wk & ->) & Ct & Nc & Lf & SR & Ln & Fin & Nf & St).
  pose proof Su as (S0 & S1 & S2 & S3 & S4 & S5).
  destruct (key_block_lengths (s_master ss) (s_cr ss) (sh_random (s_sh ss))) as (_ & K2 & _ & K4). fold (s_keys ss) in K2, K4.
  apply whole_hello in HF; [|rewrite S3; discriminate].
  assert (Hl : zlen l + zlen fs + 5 <= zlen (stream s)).
  { rewrite St, !zlen_app. pose proof (run_long l). pose proof (run_length _ _ _ _ _ SR). pose proof (wire_long ChangeCipherSpecTy maj min [x01]). pose proof (zlen_nonneg rest). lia. }
  pose proof (zlen_nonneg l). pose proof (zlen_nonneg fs).
  assert (Fc : facing (reader_new s) l (wire ChangeCipherSpecTy maj min [x01] ++ sealed ++ rest)).
  { unfold facing. cbn [reader_new r_dec r_count r_src]. split; [reflexivity|]. split; [lia|]. split; [lia|]. split; [exact Lg|exact St]. }
  rewrite <- !app_assoc in Ct.
  destruct (clear_forward m _ _ _ _ HF l (reader_new s) Fc Ct) as (l1 & r1 & F1 & Fc1 & C1 & V1).
  destruct (clear_forward m _ _ _ _ (whole_enc _ Wc) l1 r1 Fc1 C1) as (l2 & r2 & F2 & Fc2 & C2 & V2).
  destruct (clear_forward m _ _ _ _ (whole_enc _ Wk) l2 r2 Fc2 C2) as (l3 & r3 & F3 & Fc3 & C3 & V3).
  assert (Wd : wf_handshake server_hello_done) by (split; [exact I|reflexivity]).
  destruct (clear_forward m _ _ _ _ (whole_enc _ Wd) l3 r3 Fc3 C3) as (l4 & r4 & F4 & Fc4 & C4 & V4).
  set (K := s_keys ss) in *.
  assert (Fc5 : facing (ived_reader r4 K) l4 (wire ChangeCipherSpecTy maj min [x01] ++ sealed ++ rest)) by exact Fc4.
  apply none_iff in Nc, Nf. assert (N4 : none (r_buf (ived_reader r4 K) ++ contents l4)) by (cbn [ived_reader r_buf]; rewrite C4; exact Nc).
  destruct (ccs_forward m maj min _ l4 _ Fc5 N4) as (r5 & CC & B5 & St5 & V5 & D5). cbn [ived_reader r_buf r_iv] in B5, V5. rewrite C4 in B5.
  assert (Kd : keyed m (decrypting m r5 K) (k_server K) (iv_server K) 0).
  { unfold keyed, decrypting. cbn [r_dec r_iv r_count]. repeat (split; [assumption || reflexivity|]). lia. }
  assert (Ne : fs <> []).
  { intros ->. cbn [concat] in Fin. rewrite app_nil_r in Fin. rewrite Fin in Nc. exact (whole_some _ _ _ (fin_whole ss) Nc). }
  destruct (sealed_forward m _ _ _ _ extra rest (fin_whole ss) 0 fs sealed SR (decrypting m r5 K) Kd ltac:(lia) Lf St5 Ne) as (r6 & FN & Kd6 & S6 & B6).
  { cbn [decrypting r_buf]. rewrite B5. exact Fin. } { cbn [decrypting r_buf]. rewrite B5. exact Nf. }
  assert (Fl : server_flight m (reader_new s) (s_sh ss) (s_certs ss) (s_ske ss) r4) by (exists r1, r2, r3; auto).
  assert (RC : reached m s g (Complete ss)).
  { split; [exact S0|]. split; [exact S1|]. split; [exists r4; exact Fl|]. auto. }
  split; [exact RC|].
  assert (An : answered m s ss r6) by (exists r4; split; [exact Fl|]; exists r5; split; [exact CC|exact FN]).
  destruct (connects m s p g ss r6 H RC An) as (c & E & Er & _). exists c. split; [exact E|]. rewrite Er. split; [exact B6|]. split; [exact S6|]. rewrite Ln in Kd6. exact Kd6.
Qed.
Lemma stream_within s : zlen (stream s) <= zlen (all_bytes s).
Proof.
  induction s as [|[[|b bs]|] s IH]; cbn [stream]; try apply zlen_nonneg. unfold all_bytes in *. cbn [map concat].
  change (b :: bs ++ stream s) with ((b :: bs) ++ stream s). rewrite !zlen_app. lia.
Qed.
Theorem connecting_iff m s p g : healthy (writer_new p) -> zlen (all_bytes s) + 1 < 2 ^ 64 ->
  ((exists c, client_new m s p g = (Ok tt, c)) <-> exists ss n extra rest, connecting m g ss (stream s) n extra rest).
Proof.
  intros H Room. split.
  - intros (c & E). destruct (accepted_stream _ _ _ _ _ Room E) as (ss & n & _ & C & _). eauto 6.
  - intros (ss & n & extra & rest & C). assert (zlen (stream s) < 2 ^ 64).
    { pose proof (stream_within s). lia. }
    destruct (stream_accepted m s p g _ _ _ _ H ltac:(assumption) C) as (_ & c & E & _). eauto.
Qed.

(** a stream connects in one way only *)
Theorem connecting_once m g ss ss' bs n n' extra extra' rest rest' : zlen bs + 1 < 2 ^ 64 ->
  connecting m g ss bs n extra rest -> connecting m g ss' bs n' extra' rest' -> ss = ss' /\ n = n' /\ extra = extra' /\ rest = rest'.
Proof.
  intros Room C C'. assert (H : healthy (writer_new [])) by constructor.
  rewrite <- (source_stream bs) in C, C'. assert (R : zlen (stream (source bs)) < 2 ^ 64) by (rewrite source_stream; lia).
  destruct (stream_accepted m (source bs) [] g _ _ _ _ H R C) as (RC & c & E & B & S & Kd).
  destruct (stream_accepted m (source bs) [] g _ _ _ _ H R C') as (RC' & c' & E' & B' & S' & Kd').
  rewrite E in E'. apply pair_equal_spec in E' as [_ <-]. pose proof (reached_det _ _ _ _ _ RC RC') as <-.
  destruct Kd as (_ & _ & <- & _), Kd' as (_ & _ & <- & _). split; [reflexivity|]. split; [reflexivity|]. split; congruence.
Qed.
(** what comes after the Finished does not matter *)
Theorem connecting_rest m g ss bs n extra rest rest' : connecting m g ss bs n extra rest -> exists before, bs = before ++ rest /\ connecting m g ss (before ++ rest') n extra rest'.
Proof.
  intros (Su & l & msgs & clear & maj & min & fs & sealed & A1 & A2 & A3 & A4 & A5 & A6 & A7 & A8 & A9 & ->).
  exists (clear_run l ++ wire ChangeCipherSpecTy maj min [x01] ++ sealed). rewrite <- !app_assoc. split; [reflexivity|].
  split; [exact Su|]. exists l, msgs, clear, maj, min, fs, sealed. repeat (split; [assumption|]). reflexivity.
Qed.

(** ** An odd stream: foreign version bytes, bytes after the extensions, a Finished begun in the clear, bytes after it *)
Definition odd_server : server := Server (repeat x00 32) [] (Some []) [] secp256r1 1 (DigSigned (SigHash H_sha256 S_rsa) []).
Lemma odd_wf : wf_server odd_server.
Proof.
  split; [split; [split; [reflexivity|split; [discriminate|split; [constructor|discriminate]]]|discriminate]|]. split; [split; [split; [constructor|discriminate]|reflexivity]|].
  split; [split; reflexivity|split; discriminate].
Qed.
Definition odd_hello (ss : session) : bytes := frame x02 (e_server_hello (s_sh ss) ++ [x61; x62]).
Definition odd_stream (ss : session) (q : bytes) : bytes :=
  wire HandshakeTy x00 xff (odd_hello ss ++ e_handshake (certificate (s_certs ss))) ++ wire HandshakeTy x02 x00 (e_handshake (server_key_exchange (s_ske ss)) ++ [x0e]) ++
  wire HandshakeTy xff xff ([x00; x00; x00] ++ [x14; x00]) ++ wire ChangeCipherSpecTy xaa xbb [x01] ++
  wire HandshakeTy x01 x02 (aead_seal (k_server (s_keys ss)) (rfc_nonce (iv_server (s_keys ss)) 0) (rfc_ad 0 HandshakeTy x01 x02 1) [x00]) ++
  wire HandshakeTy x03 x03 (aead_seal (k_server (s_keys ss)) (rfc_nonce (iv_server (s_keys ss)) 1) (rfc_ad 1 HandshakeTy x03 x03 14) (x0c :: q ++ [x63])).
Lemma odd_run m : exists ss q, agreed odd_server (firstn 32 one_tape) Gpt ss /\ e_handshake (s_server_fin ss) = [x14; x00; x00; x0c] ++ q /\
  connecting m one_tape ss (odd_stream ss q) 2 [x63] [].
Proof.
  pose proof (plain_key : nmul (Z.to_nat 1) Gpt = Gpt) as G1.
  destruct (server_agrees odd_server (firstn 32 one_tape) 1 odd_wf ltac:(lia)) as (ss & A).
  pose proof (exchange_agrees m odd_server (skipn 32 one_tape) 0 ss (firstn 32 one_tape) odd_wf one_accepted) as K. rewrite one_scalar in K. specialize (K ltac:(discriminate) A).
  pose proof (agreed_good odd_server (skipn 32 one_tape) 0 (firstn 32 one_tape) ss odd_wf eq_refl one_accepted) as G. rewrite one_scalar in G. specialize (G ltac:(discriminate) A).
  rewrite G1 in A. exists ss, (expected_server ss). split; [exact A|]. split; [apply fin_shape|].
  assert (Lq : length (expected_server ss) = 12%nat) by apply verify_data_length.
  assert (X : s_cr ss = firstn 32 one_tape /\ s_sh ss = sv_hello odd_server /\ s_certs ss = [] /\ zlen (s_ske ss) <= 200).
  { destruct A as (sx & sy & cx & cy & zx & zy & _ & _ & _ & ->). cbn [s_cr s_sh s_certs s_ske]. split; [reflexivity|]. split; [reflexivity|]. split; [reflexivity|].
    unfold e_ske, sp_vec, sec1, zlen. cbn [ske_curve ske_public ske_signed odd_server sv_curve sv_sig]. rewrite !app_length, !be_length. cbn [length]. rewrite app_length, !be_length. vm_compute. discriminate. }
  destruct X as (X1 & X2 & X3 & X4).
  assert (Wk : wf_handshake (server_key_exchange (s_ske ss))).
  { destruct G as (_ & _ & _ & _ & G). rewrite Forall_forall in G. apply G. cbn. auto. }
  split.
  { split; [cbn; lia|]. split; [exact X1|]. rewrite X2. do 3 (split; [reflexivity|]). eauto. }
  exists [(x00, xff, odd_hello ss ++ e_handshake (certificate (s_certs ss))); (x02, x00, e_handshake (server_key_exchange (s_ske ss)) ++ [x0e]); (xff, xff, [x00; x00; x00] ++ [x14; x00])],
    (odd_hello ss ++ e_handshake (certificate (s_certs ss)) ++ e_handshake (server_key_exchange (s_ske ss)) ++ e_handshake server_hello_done), [x14; x00], xaa, xbb,
    [[x00]; x0c :: expected_server ss ++ [x63]], (wire HandshakeTy x01 x02 (aead_seal (k_server (s_keys ss)) (rfc_nonce (iv_server (s_keys ss)) 0) (rfc_ad 0 HandshakeTy x01 x02 1) [x00]) ++
  wire HandshakeTy x03 x03 (aead_seal (k_server (s_keys ss)) (rfc_nonce (iv_server (s_keys ss)) 1) (rfc_ad 1 HandshakeTy x03 x03 14) (x0c :: expected_server ss ++ [x63]))).
  assert (Lx : zlen (x0c :: expected_server ss ++ [x63]) = 14) by (rewrite zlen_cons, zlen_app; unfold zlen; rewrite Lq; reflexivity).
  split.
  { unfold odd_hello. rewrite X2, X3. constructor; [split; [discriminate|discriminate]|]. constructor; [|constructor; [split; discriminate|constructor]].
    cbn [snd]. unfold legal_fragment. rewrite zlen_app, e_handshake_len. cbn [e_hs_body]. pose proof (zlen_nonneg (s_ske ss)). change (zlen [x0e]) with 1. lia. }
  split.
  { exists (odd_hello ss). split; [|split; [rewrite X3; split; [split; [constructor|discriminate]|reflexivity]|split; [exact Wk|reflexivity]]].
    unfold odd_hello. rewrite X2. split; [apply odd_wf|]. exists [x61; x62]. split; [reflexivity|]. split; [reflexivity|discriminate]. }
  split.
  { unfold contents. cbn [map concat snd]. rewrite <- !app_assoc. cbn [app]. change (e_handshake server_hello_done) with [x0e; x00; x00; x00]. reflexivity. }
  split.
  { exists x14, [], [x00; x00]. split; [reflexivity|]. split; [reflexivity|discriminate]. }
  split.
  { constructor; [split; discriminate|]. constructor; [unfold legal_fragment; rewrite Lx; lia|constructor]. }
  split.
  { constructor. rewrite <- Lx. rewrite <- (app_nil_r (wire HandshakeTy x03 x03 _)). constructor. constructor. }
  split; [reflexivity|]. split; [rewrite fin_shape; cbn [concat app]; rewrite app_nil_r; reflexivity|]. split.
  { cbn [removelast concat app]. exists x14, [], [x00]. split; [reflexivity|]. split; [reflexivity|discriminate]. }
  unfold odd_stream, clear_run. cbn [map concat fst snd]. rewrite <- !app_assoc, !app_nil_r. cbn [app]. reflexivity.
Qed.
