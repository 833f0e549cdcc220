(** C79: with a TLS server, the client and an application behave as on a plain pipe. *)
From Verif Require Import Spec_Talk2 P_Util P_Codec P_RecordW P_RecordR P_Record P_Record2 P_Aead P_Ecdhe P_Halt P_Client P_Client2 P_App P_App2 P_App3 P_Client3 P_Client5 P_Fault P_Ops P_Talk P_Talk2 P_Talk3.
From Coq Require Import ZifyBool ZifyNat ZifyN.
Local Open Scope list_scope.
Local Open Scope Z_scope.
#[local] Opaque aead_seal aead_decrypt aead_encrypt compute_keys SHA256 HMAC PRF nmul.

(** ** The records of the application *)
Definition cutup (b : bytes) : list (content_type * bytes) := map (pair ApplicationDataTy) (chunks (Z.to_nat RECORD_MAX_LEN) b).
Fixpoint items_of (q : application) (d : bytes) : list (content_type * bytes) :=
  match q with
  | Quit => []
  | Do (Read n) next => if (n <=? length d)%nat then items_of (next (Got (Ok (firstn n d)))) (skipn n d) else []
  | Do (Write b) next => cutup b ++ items_of (next (Wrote (Ok (zlen b)))) d
  | Do Close next => (AlertTy, [x02; x00]) :: items_of (next (Closed (Ok tt))) d
  end.
Lemma says_app a b : says (a ++ b) = says a ++ says b.
Proof. unfold says. rewrite map_app, concat_app. reflexivity. Qed.
Lemma says_cutup b : says (cutup b) = map Some b.
Proof.
  destruct (fragments_legal b) as (E & _). unfold cutup. rewrite <- E at 2. generalize (chunks (Z.to_nat RECORD_MAX_LEN) b) as fs. clear.
  induction fs as [|f fs IH]; [reflexivity|]. cbn [map concat]. rewrite map_app, <- IH. reflexivity.
Qed.
Lemma says_items q : forall d, says (items_of q d) = said q d.
Proof.
  unfold said. induction q as [|o next IH]; intros d; [reflexivity|]. destruct o as [n|b|]; cbn [items_of plain].
  - destruct (n <=? length d)%nat; [|reflexivity]. rewrite IH. destruct (plain _ _). reflexivity.
  - rewrite says_app, says_cutup, IH. destruct (plain _ _). reflexivity.
  - change (says ((AlertTy, [x02; x00]) :: ?a)) with (None :: says a). rewrite IH. destruct (plain _ _). reflexivity.
Qed.
Lemma cutup_legal b : Forall legal_item (cutup b).
Proof. destruct (fragments_legal b) as (_ & F & _). unfold cutup. induction F; cbn [map]; constructor; auto. left. auto. Qed.
Lemma items_legal q : forall d, Forall legal_item (items_of q d).
Proof.
  induction q as [|o next IH]; intros d; [constructor|]. destruct o as [n|b|]; cbn [items_of].
  - destruct (n <=? length d)%nat; [apply IH|constructor].
  - apply Forall_app. split; [apply cutup_legal|apply IH].
  - constructor; [right; reflexivity|apply IH].
Qed.
Lemma legal_says it : Forall legal_item it -> zlen it <= zlen (says it).
Proof.
  induction 1 as [|[t f] it L F IH]; [reflexivity|]. change ((t, f) :: it) with ([(t, f)] ++ it). rewrite says_app, !zlen_app. change (zlen [(t, f)]) with 1.
  enough (1 <= zlen (says [(t, f)])) by lia. destruct L as [[E [L _]]|E]; cbn [fst snd] in *.
  - subst t. unfold says. cbn [map concat fst snd]. rewrite app_nil_r. unfold zlen in *. rewrite map_length. exact L.
  - injection E as -> ->. unfold zlen. cbn. lia.
Qed.
Lemma said_grows q : forall d x, exists u, said q (d ++ x) = said q d ++ u.
Proof.
  unfold said. induction q as [|o next IH]; intros d x; [exists []; reflexivity|]. destruct o as [n|b|]; cbn [plain].
  - destruct (Nat.leb_spec n (length d)) as [L|L].
    + rewrite app_length. destruct (Nat.leb_spec n (length d + length x)) as [_|]; [|lia].
      rewrite firstn_app, skipn_app. replace (n - length d)%nat with 0%nat by lia. cbn [firstn skipn]. rewrite app_nil_r.
      destruct (IH (Got (Ok (firstn n d))) (skipn n d) x) as (u & E). exists u. destruct (plain _ (skipn n d ++ x)), (plain _ (skipn n d)). exact E.
    + eexists. reflexivity.
  - destruct (IH (Wrote (Ok (zlen b))) d x) as (u & E). exists u. destruct (plain _ (d ++ x)), (plain _ d). cbn [snd] in *. rewrite E, app_assoc. reflexivity.
  - destruct (IH (Closed (Ok tt)) d x) as (u & E). exists u. destruct (plain _ (d ++ x)), (plain _ d). cbn [snd] in *. rewrite E. reflexivity.
Qed.

(** ** Reading at the mark *)
Lemma set_src_id r : set_src r (r_src r) = r. Proof. destruct r; reflexivity. Qed.
Definition marked (c : client) : Prop := exists b, like b [RErr] (r_src (c_reader c)).
Lemma app_marked m r d r' b : like b [RErr] (r_src r) -> read_application_data m r = (Ok d, r') -> exists b', like b' [RErr] (r_src r').
Proof.
  intros L E. destruct (rc_app m r b) as [(x & r1 & b1 & _ & D)|(r1 & W)].
  - destruct (D _ _ L) as (s1 & E1 & L1). rewrite set_src_id, E in E1. apply pair_equal_spec in E1 as [_ ->]. exists b1. exact L1.
  - specialize (W _ _ _ (or_introl eq_refl) L). rewrite set_src_id, E in W. discriminate W.
Qed.
Lemma rd_marked m len done c x c' : rd m len done c x c' -> marked c -> forall d, x = Ok d -> (len <= length d)%nat -> marked c'.
Proof.
  induction 1 as [done c L|done c x c' L B R IH|done c d r' x c' L B E R IH|done c e r' L B E|done c r' L B E|done c r' L B E]; intros M d0 Ex Ld.
  - exact M.
  - eapply IH; eauto.
  - eapply IH; eauto. destruct M as (b & M). destruct (app_marked m _ _ _ b M E) as (b' & M'). exists b'. exact M'.
  - injection Ex as <-. lia.
  - discriminate.
  - discriminate.
Qed.
Lemma like_stream b s : like b [RErr] s -> stream s = b.
Proof.
  intros (a & C & E & ->). subst b. induction C as [|e a (x & xs & ->) C IH]; [reflexivity|]. cbn [app stream]. rewrite IH. reflexivity.
Qed.
Lemma starving m r dc e r' : r_dec r = Some dc -> no_pending r -> like [] [RErr] (r_src r) ->
  read_application_data m r = (Err e, r') -> r_src r' = [].
Proof.
  intros K NP L E. destruct (rc_app m r []) as [(x & r1 & b1 & _ & D)|(r1 & W)].
  - exfalso. destruct (D _ _ L) as (s1 & E1 & _).
    destruct (read_app_eof m _ _ K (like_stream _ _ L) NP) as (r2 & E2). rewrite set_src_id, E2 in E1. apply pair_equal_spec in E1 as [<- _].
    destruct (D [RData [x18]] [RData [x18]] (like_nil _)) as (s3 & E3 & _).
    destruct (unknown_type m (set_src r [RData [x18]]) x18 [] eq_refl ltac:(cbn; lia)) as (_ & U). specialize (U NP).
    unfold read_application_data, mbind in E3. change (r_dec (set_src r [RData [x18]])) with (r_dec r) in E3. rewrite K in E3.
    destruct (read_message m (set_src r [RData [x18]])) as [y r3]. cbn [fst] in U. subst y. discriminate E3.
  - specialize (W _ _ _ (or_introl eq_refl) L). rewrite set_src_id, E in W. apply pair_equal_spec in W as [_ ->]. reflexivity.
Qed.
Lemma like_nothing b s : like b [RErr] s -> stream s = [] -> like [] [RErr] s.
Proof. intros L E. rewrite (like_stream _ _ L) in E. subst b. exact L. Qed.
Lemma rd_starves m key iv len done c x c' : rd m len done c x c' -> forall k fs, serving m c key iv k fs [] -> marked c ->
  (length done + length (c_buf c ++ concat fs) < len)%nat -> r_src (c_reader c') = [].
Proof.
  assert (SE : forall c e r' k fs, serving m c key iv k fs [] -> marked c -> read_application_data m (c_reader c) = (Err e, r') -> r_src r' = []).
  { intros c0 e r' k fs (Hk & S & F & K & NP) (b & M) E. destruct fs as [|f fs].
    - eapply starving; [exact (proj1 Hk)|exact NP| |exact E]. eapply like_nothing; [exact M|exact S].
    - exfalso. inversion F; subst. cbn [sealed_stream] in S. rewrite <- app_assoc in S. rewrite zlen_cons in K. pose proof (zlen_nonneg fs).
      destruct (read_app_data m _ key iv k f _ Hk S ltac:(assumption) ltac:(lia) NP) as (r1 & E1 & _). congruence. }
  assert (SN : forall c r' k fs x, serving m c key iv k fs [] -> read_application_data m (c_reader c) = (x, r') -> fine x).
  { intros c0 r' k fs y (Hk & S & F & K & NP) E. destruct fs as [|f fs].
    - destruct Hk as (D & _). destruct (read_app_eof m _ _ D S NP) as (r1 & E1). rewrite E1 in E. apply pair_equal_spec in E as [<- _]. exact I.
    - inversion F; subst. cbn [sealed_stream] in S. rewrite <- app_assoc in S. rewrite zlen_cons in K. pose proof (zlen_nonneg fs).
      destruct (read_app_data m _ key iv k f _ Hk S ltac:(assumption) ltac:(lia) NP) as (r1 & E1 & _). rewrite E1 in E. apply pair_equal_spec in E as [<- _]. exact I. }
  induction 1 as [done c L|done c x c' L B R IH|done c d r' x c' L B E R IH|done c e r' L B E|done c r' L B E|done c r' L B E]; intros k fs Hs M Lf.
  - lia.
  - apply (IH k fs Hs M). cbn [with_buf c_buf]. rewrite !app_length, firstn_length, skipn_length in *. lia.
  - destruct M as (b & M). destruct (app_marked m _ _ _ b M E) as (b' & M').
    destruct Hs as (Hk & S & F & K & NP). destruct fs as [|f fs].
    { destruct Hk as (D & _). destruct (read_app_eof m _ _ D S NP) as (r1 & E1). congruence. }
    inversion F; subst. cbn [sealed_stream] in S. rewrite <- app_assoc in S. rewrite zlen_cons in K. pose proof (zlen_nonneg fs).
    destruct (read_app_data m _ key iv k f _ Hk S ltac:(assumption) ltac:(lia) NP) as (r1 & E1 & Hk1 & S1 & NP1).
    rewrite E1 in E. apply pair_equal_spec in E as [E <-]. apply Ok_inj in E. subst d.
    apply (IH (k + 1) fs).
    + split; [exact Hk1|]. split; [exact S1|]. split; [assumption|]. split; [lia|exact NP1].
    + exists b'. exact M'.
    + rewrite B in Lf. cbn [with_buf c_buf concat app] in *. rewrite !app_length, firstn_length, skipn_length in *. lia.
  - eapply SE; eassumption.
  - destruct (SN _ _ _ _ _ Hs E).
  - destruct (SN _ _ _ _ _ Hs E).
Qed.

(** ** Calls on a connected client *)
Lemma write_cutup m key iv k buf c : keyed_w m (c_writer c) key iv k -> healthy (c_writer c) -> k + zlen buf < 2 ^ 64 ->
  exists c', client_write m buf c = (Ok (zlen buf), c') /\ c_reader c' = c_reader c /\ c_buf c' = c_buf c /\ healthy (c_writer c') /\
    w_out (c_writer c') = w_out (c_writer c) ++ sealed_items key iv k (cutup buf) /\ keyed_w m (c_writer c') key iv (k + zlen (cutup buf)).
Proof.
  intros (E & V & C & Lk & Li & K0) Hw K. destruct (fragments_legal buf) as (H1 & H2 & H3). unfold cutup. rewrite sealed_items_map.
  set (fs := chunks (Z.to_nat RECORD_MAX_LEN) buf) in *. replace (zlen (map (pair ApplicationDataTy) fs)) with (zlen fs) by (unfold zlen; rewrite map_length; reflexivity).
  destruct (write_fragments_sealed m ApplicationDataTy (new_encryptor m key) iv 16 fs Li (aead_seals m key Lk) ltac:(lia) H2 (c_writer c) E V) as (x & w' & ss & W & S1 & S2 & Em & A & B & H & D); [lia|lia|].
  rewrite C in *. rewrite (sealed_as_stream m key iv _ Lk Li fs ss k H2 K0 ltac:(lia) S1) in Em.
  unfold client_write, client_write_all, or_alert, mbind, on_writer, write_application_data. rewrite E. unfold write_data. fold fs. rewrite W.
  destruct Em as [[-> O]|(_ & Hn & _)]; [|contradiction].
  exists (Client (c_reader c) w' (c_rng c) (c_buf c)). cbn [c_reader c_writer c_buf mret]. split; [reflexivity|].
  split; [reflexivity|]. split; [reflexivity|]. split; [exact (H Hw)|]. split; [exact O|]. specialize (D eq_refl). repeat split; try assumption. pose proof (zlen_nonneg fs). lia.
Qed.
Lemma close_writes m c x c' : client_close m c = (x, c') -> c_reader c' = c_reader c /\ c_buf c' = c_buf c.
Proof.
  unfold client_close, on_writer. destruct (write_alert m _ (c_writer c)) as [y w]. intros E. apply pair_equal_spec in E as [_ <-]. auto.
Qed.
Lemma unstarved c : marked c -> starved c = false.
Proof. intros (b & L). unfold starved. pose proof (like_nonempty _ _ _ L ltac:(discriminate)). destruct (r_src (c_reader c)); congruence. Qed.
Lemma perform_plain m key iv key' iv' q : forall c k fs k', serving m c key iv k fs [] -> marked c ->
  keyed_w m (c_writer c) key' iv' k' -> healthy (c_writer c) -> k' + zlen (said q (c_buf c ++ concat fs)) < 2 ^ 64 ->
  exists c', perform m q c = (fst (plain q (c_buf c ++ concat fs)), c') /\
    w_out (c_writer c') = w_out (c_writer c) ++ sealed_items key' iv' k' (items_of q (c_buf c ++ concat fs)).
Proof.
  induction q as [|o next IH]; intros c k fs k' Hs M Kw Hw Bd.
  - exists c. split; [reflexivity|]. cbn [items_of sealed_items]. rewrite app_nil_r. reflexivity.
  - destruct o as [n|b|]; cbn [perform items_of plain].
    + cbn [do_call]. unfold said in Bd. cbn [plain] in Bd. destruct (client_read m n c) as [x c1] eqn:E.
      pose proof (read_writer m n c) as Wr. rewrite E in Wr. cbn [snd] in Wr. apply read_rd in E.
      destruct (Nat.leb_spec n (length (c_buf c ++ concat fs))) as [L|L].
      * destruct (rd_serves m key iv [] n [] c x c1 E k fs Hs) as (out & k1 & fs1 & -> & Lo & Eq & Hs1); [cbn; lia|cbn [length]; lia|].
        cbn [app] in Eq. pose proof (rd_marked _ _ _ _ _ _ E M out eq_refl ltac:(lia)) as M1. rewrite (unstarved _ M1). cbn [crashed].
        assert (F1 : firstn n (c_buf c ++ concat fs) = out) by (rewrite <- Eq, firstn_app, Lo, Nat.sub_diag, firstn_O, app_nil_r; apply firstn_all2; lia).
        assert (F2 : skipn n (c_buf c ++ concat fs) = c_buf c1 ++ concat fs1) by (rewrite <- Eq, skipn_app, Lo, Nat.sub_diag, skipn_all2 by lia; reflexivity).
        rewrite F1, F2 in *.
        destruct (IH (Got (Ok out)) c1 k1 fs1 k' Hs1) as (c2 & E2 & O2).
        { exact M1. } { rewrite Wr. exact Kw. } { rewrite Wr. exact Hw. }
        { unfold said. destruct (plain (next (Got (Ok out))) (c_buf c1 ++ concat fs1)). exact Bd. }
        rewrite E2. exists c2. split; [|rewrite O2, Wr; reflexivity]. destruct (plain (next (Got (Ok out))) (c_buf c1 ++ concat fs1)). reflexivity.
      * pose proof (rd_starves m key iv n [] c x c1 E k fs Hs M ltac:(cbn [length]; lia)) as N. rewrite (starved_nil _ N).
        exists c1. split; [reflexivity|]. rewrite Wr. cbn [sealed_items]. rewrite app_nil_r. reflexivity.
    + cbn [do_call]. unfold said in Bd. cbn [plain] in Bd.
      destruct (write_cutup m key' iv' k' b c Kw Hw) as (c1 & E & R1 & B1 & H1 & O1 & K1).
      { destruct (plain _ _) as [? o]. cbn [snd] in Bd. rewrite zlen_app in Bd. pose proof (zlen_nonneg o). unfold zlen in *. rewrite map_length in Bd. lia. }
      rewrite E. assert (M1 : marked c1) by (unfold marked; rewrite R1; exact M). rewrite (unstarved _ M1). cbn [crashed].
      pose proof (legal_says _ (cutup_legal b)) as Lc. rewrite says_cutup in Lc.
      destruct (IH (Wrote (Ok (zlen b))) c1 k fs (k' + zlen (cutup b))) as (c2 & E2 & O2).
      { unfold serving in *. rewrite R1. exact Hs. } { exact M1. } { exact K1. } { exact H1. }
      { rewrite B1. unfold said. destruct (plain _ _) as [? o]. cbn [snd] in *. rewrite zlen_app in Bd. lia. }
      rewrite B1 in *. rewrite E2. exists c2. split; [destruct (plain _ _); reflexivity|]. rewrite O2, O1, sealed_items_app, app_assoc. reflexivity.
    + cbn [do_call]. unfold said in Bd. cbn [plain] in Bd.
      destruct (close_app m key' iv' k' c Kw) as (x & c1 & E & H1 & D).
      { destruct (plain _ _) as [? o]. cbn [snd] in Bd. rewrite zlen_cons in Bd. pose proof (zlen_nonneg o). lia. }
      destruct D as [(-> & O1 & K1)|(_ & X)]; [|contradiction]. destruct (close_writes _ _ _ _ E) as [R1 B1].
      rewrite E. assert (M1 : marked c1) by (unfold marked; rewrite R1; exact M). rewrite (unstarved _ M1). cbn [crashed].
      destruct (IH (Closed (Ok tt)) c1 k fs (k' + 1)) as (c2 & E2 & O2).
      { unfold serving in *. rewrite R1. exact Hs. } { exact M1. } { exact K1. } { auto. }
      { rewrite B1. unfold said. destruct (plain _ _) as [? o]. cbn [snd] in *. rewrite zlen_cons in Bd. lia. }
      rewrite B1 in *. rewrite E2. exists c2. split; [destruct (plain _ _); reflexivity|]. cbn [sealed_items]. rewrite O2, O1, <- app_assoc. reflexivity.
Qed.
