(** C93: a whole session, for every stream of bytes. *)
From Verif Require Import Spec_Life P_Util P_Codec P_CodecProps P_RecordW P_RecordR P_Record P_Record2 P_Aead P_Ecdhe P_Halt P_Client P_Client2 P_App P_App2 P_Panic P_Client3 P_Fault P_Client4 P_Client5 P_Pending P_Open P_Eof P_Ops P_Std P_Talk2 P_Talk P_Talk4 P_Accept P_Receive P_Build.
From Coq Require Import ZifyBool ZifyNat ZifyN.
Local Open Scope list_scope.
Local Open Scope Z_scope.
#[local] Opaque SHA256 HMAC aead_seal aead_decrypt aead_encrypt compute_keys PRF nmul.

(** ** Records *)
Lemma parcels_chunks d fs : parcels d fs -> fs = chunks (Z.to_nat RECORD_MAX_LEN) d.
Proof.
  induction 1 as [|d L|f d fs L N P IH].
  - rewrite chunks_nil. reflexivity.
  - rewrite chunks_small by exact L. reflexivity.
  - assert (Lf : length f = Z.to_nat RECORD_MAX_LEN) by (unfold zlen, RECORD_MAX_LEN in *; lia).
    rewrite chunks_cons.
    + rewrite <- Lf. rewrite firstn_app, Nat.sub_diag, firstn_all, firstn_O, app_nil_r, skipn_app, Nat.sub_diag, skipn_all, skipn_O. cbn [app]. rewrite Lf, <- IH. reflexivity.
    + unfold RECORD_MAX_LEN. lia.
    + intros X. apply app_eq_nil in X as [_ X]. contradiction.
Qed.
Lemma parcels_some : forall n d, (length d <= n)%nat -> exists fs, parcels d fs.
Proof.
  induction n as [|n IH]; intros d L.
  - destruct d; [exists []; constructor|cbn [length] in L; lia].
  - destruct d as [|b d]; [exists []; constructor|]. destruct (Z.leb_spec (zlen (b :: d)) 16384) as [Le|Gt].
    + exists [b :: d]. apply P_last. rewrite zlen_cons in *. pose proof (zlen_nonneg d). lia.
    + set (x := b :: d) in *. destruct (IH (skipn (Z.to_nat 16384) x)) as (fs & P).
      { rewrite skipn_length. lia. }
      exists (firstn (Z.to_nat 16384) x :: fs). rewrite <- (firstn_skipn (Z.to_nat 16384) x) at 1. apply P_full; [|intros X|exact P].
      * unfold zlen in *. rewrite firstn_length. lia.
      * apply (f_equal (@length byte)) in X. rewrite skipn_length in X. cbn [length] in X. unfold zlen in Gt. lia.
Qed.
Lemma parcels_iff d fs : parcels d fs <-> fs = chunks (Z.to_nat RECORD_MAX_LEN) d.
Proof.
  split; [apply parcels_chunks|]. intros ->. destruct (parcels_some (length d) d (le_n _)) as (fs & P). pose proof (parcels_chunks _ _ P) as <-. exact P.
Qed.
Lemma parcels_small d : legal_fragment d -> parcels d [d].
Proof. intros L. apply P_last. exact L. Qed.

(** ** An application at work *)
Definition talks (m : mode) (c : client) (ks ivs kc ivc buf : bytes) (k : Z) (pend bs : bytes) (j : Z) : Prop :=
  has m c ks ivs buf k pend bs /\ k + zlen bs < 2 ^ 64 /\ keyed_w m (c_writer c) kc ivc j /\ healthy (c_writer c).
Lemma spent_nonneg q : forall l, 0 <= spent q l.
Proof.
  induction q as [|o next IH]; intros [|a l]; cbn [spent]; try lia. specialize (IH a l). destruct o; cbn [call_cost]; try lia. pose proof (zlen_nonneg buf). lia.
Qed.
Lemma has_same m c c' key iv buf k pend bs : c_reader c' = c_reader c -> c_buf c' = c_buf c -> has m c key iv buf k pend bs -> has m c' key iv buf k pend bs.
Proof. intros R B H. unfold has in *. rewrite R, B. exact H. Qed.
Lemma filling_room key iv n buf k pend bs x buf' k' pend' bs' : filling key iv n buf k pend bs x buf' k' pend' bs' -> k' + zlen bs' <= k + zlen bs.
Proof.
  induction 1 as [n buf k pend bs L|n buf k pend bs d k1 pend1 bs1 x buf' k' pend' bs' L R F IH|n buf k pend bs e k1 pend1 bs1 L R|n buf k pend bs k1 pend1 bs1 L R|n buf k pend bs d k1 pend1 bs1 buf' k' pend' bs' L R F IH]; try lia;
    destruct (receive_shorter _ _ _ _ _ _ _ _ _ R) as (R1 & R2 & _); lia.
Qed.
Lemma use_out m q : forall c, exists more, w_out (c_writer (snd (use m q c))) = w_out (c_writer c) ++ more.
Proof.
  induction q as [|o next IH]; intros c; [exists []; rewrite app_nil_r; reflexivity|]. cbn [use]. destruct (do_call m o c) as [a c1] eqn:E.
  destruct (call_grows m o c) as (u & O). rewrite E in O. unfold c_out in O. cbn [snd] in O.
  destruct (crashed a); [exists u; exact O|]. destruct (IH a c1) as (v & O2). destruct (use m (next a) c1) as [l c2]. exists (u ++ v). cbn [snd] in *. rewrite O2, O, app_assoc. reflexivity.
Qed.
Lemma use_iff m ks ivs kc ivc q : forall c buf k pend bs j l out, talks m c ks ivs kc ivc buf k pend bs j -> j + spent q l < 2 ^ 64 ->
  ((exists c', use m q c = (l, c') /\ w_out (c_writer c') = w_out (c_writer c) ++ out) <-> life ks ivs kc ivc q buf k pend bs j l out).
Proof.
  induction q as [|o next IH]; intros c buf k pend bs j l out T Sp.
  - cbn [use]. split.
    + intros (c' & E & O). apply pair_equal_spec in E as [<- <-]. rewrite <- (app_nil_r (w_out (c_writer c))) in O at 1. apply app_inv_head in O as <-. constructor.
    + intros L. inversion L; subst. exists c. rewrite app_nil_r. auto.
  - pose proof T as (Ha & Rm & Kw & He). destruct o as [n|d|].
    + pose proof Ha as (((_ & _ & _ & Lk & Li & K0) & _) & _).
      destruct (filling_one ks ivs n buf k pend bs Lk Li K0 Rm) as (x & buf' & k' & pend' & bs' & F & U).
      destruct (filling_sound m _ _ _ _ _ _ _ _ _ _ _ _ F c Ha Rm) as (c1 & E1 & H1 & W1 & G1). pose proof (filling_room _ _ _ _ _ _ _ _ _ _ _ _ F) as R1.
      cbn [use do_call]. rewrite E1. assert (Cx : (exists e, x = Ok e) \/ x = Panic) by (destruct F; eauto). destruct Cx as [(e & ->)| -> ]; cbn [crashed].
      * assert (T1 : talks m c1 ks ivs kc ivc buf' k' pend' bs' j) by (split; [exact H1|]; split; [lia|]; rewrite W1; auto).
        split.
        -- intros (c' & E & O). destruct (use m (next (Got (Ok e))) c1) as [l1 c2] eqn:E2. apply pair_equal_spec in E as [<- <-]. eapply L_read; [exact F|].
           cbn [spent call_cost] in Sp. apply (IH (Got (Ok e)) c1 _ _ _ _ _ _ _ T1); [lia|]. exists c2. rewrite W1. auto.
        -- intros L. inversion L as [|n0 next0 ? ? ? ? ? d0 b2 k2 p2 s2 l0 ? F2 L2|n0 next0 ? ? ? ? ? b2 k2 p2 s2 F2| |]; subst; destruct (U _ _ _ _ _ F2) as (X & -> & -> & -> & ->); [|discriminate X].
           apply Ok_inj in X as ->. cbn [spent call_cost] in Sp. destruct (proj2 (IH (Got (Ok e)) c1 _ _ _ _ j l0 out T1 ltac:(lia)) L2) as (c2 & E2 & O2). rewrite E2. exists c2. rewrite <- W1. auto.
      * split.
        -- intros (c' & E & O). apply pair_equal_spec in E as [<- <-]. rewrite W1, <- (app_nil_r (w_out (c_writer c))) in O at 1. apply app_inv_head in O as <-. eapply L_panic, F.
        -- intros L. inversion L as [|n0 next0 ? ? ? ? ? d0 b2 k2 p2 s2 l0 ? F2 L2|n0 next0 ? ? ? ? ? b2 k2 p2 s2 F2| |]; subst; destruct (U _ _ _ _ _ F2) as (X & _); [discriminate X|].
           exists c1. rewrite W1, app_nil_r. auto.
    + assert (B : forall a l0, l = a :: l0 -> j + zlen d + spent (next a) l0 < 2 ^ 64) by (intros a l0 ->; cbn [spent call_cost] in Sp; lia).
      assert (Z : l <> [] -> j + zlen d < 2 ^ 64) by (destruct l as [|a l0]; [congruence|]; intros _; specialize (B a l0 eq_refl); pose proof (spent_nonneg (next a) l0); lia).
      cbn [use do_call]. split.
      * intros (c' & E & O). destruct (client_write m d c) as [y c0] eqn:Ew.
        assert (Nl : l <> []) by (destruct (crashed (Wrote y)); [|destruct (use m (next (Wrote y)) c0)]; apply pair_equal_spec in E as [<- _]; discriminate).
        destruct (write_cutup m kc ivc j d c Kw He (Z Nl)) as (c1 & E1 & Rr & Rb & H1 & O1 & K1). rewrite Ew in E1. apply pair_equal_spec in E1 as [-> ->]. cbn [crashed] in E.
        destruct (use m (next (Wrote (Ok (zlen d)))) c1) as [l1 c2] eqn:E2. apply pair_equal_spec in E as [<- <-]. specialize (B _ _ eq_refl).
        destruct (fragments_legal d) as (_ & _ & Lf). unfold cutup in O1, K1. rewrite sealed_items_map in O1. replace (zlen (map (pair ApplicationDataTy) (chunks (Z.to_nat RECORD_MAX_LEN) d))) with (zlen (chunks (Z.to_nat RECORD_MAX_LEN) d)) in K1 by (unfold zlen; rewrite map_length; reflexivity).
        cbv zeta in Lf. set (fs := chunks (Z.to_nat RECORD_MAX_LEN) d) in *.
        destruct (use_out m (next (Wrote (Ok (zlen d)))) c1) as (more & Om). rewrite E2 in Om. cbn [snd] in Om.
        rewrite Om, O1, <- app_assoc in O. apply app_inv_head in O as <-. apply L_write; [apply parcels_iff; reflexivity|].
        apply (IH _ c1); [|lia|exists c2; split; [exact E2|exact Om]]. split; [eapply has_same; eassumption|]. auto.
      * intros L. inversion L as [| | |d0 next0 ? ? ? ? ? fs l0 out0 P L2|]; subst. apply parcels_iff in P as ->. specialize (B _ _ eq_refl).
        destruct (write_cutup m kc ivc j d c Kw He (Z ltac:(discriminate))) as (c1 & E1 & Rr & Rb & H1 & O1 & K1). rewrite E1. cbn [crashed].
        destruct (fragments_legal d) as (_ & _ & Lf). unfold cutup in O1, K1. rewrite sealed_items_map in O1. replace (zlen (map (pair ApplicationDataTy) (chunks (Z.to_nat RECORD_MAX_LEN) d))) with (zlen (chunks (Z.to_nat RECORD_MAX_LEN) d)) in K1 by (unfold zlen; rewrite map_length; reflexivity).
        cbv zeta in Lf. set (fs := chunks (Z.to_nat RECORD_MAX_LEN) d) in *.
        destruct (proj2 (IH (Wrote (Ok (zlen d))) c1 buf k pend bs (j + zlen fs) l0 out0 ltac:(split; [eapply has_same; eassumption|auto]) ltac:(lia)) L2) as (c2 & E2 & O2).
        rewrite E2. exists c2. split; [reflexivity|]. rewrite O2, O1, <- app_assoc. reflexivity.
    + assert (B : forall a l0, l = a :: l0 -> j + 1 + spent (next a) l0 < 2 ^ 64) by (intros a l0 ->; cbn [spent call_cost] in Sp; lia).
      assert (Z : l <> [] -> j + 1 < 2 ^ 64) by (destruct l as [|a l0]; [congruence|]; intros _; specialize (B a l0 eq_refl); pose proof (spent_nonneg (next a) l0); lia).
      cbn [use do_call]. split.
      * intros (c' & E & O). destruct (client_close m c) as [y c0] eqn:Ew.
        assert (Nl : l <> []) by (destruct (crashed (Closed y)); [|destruct (use m (next (Closed y)) c0)]; apply pair_equal_spec in E as [<- _]; discriminate).
        destruct (close_writes _ _ _ _ Ew) as [Rr Rb]. destruct (close_app m kc ivc j c Kw (Z Nl)) as (y1 & c1 & E1 & H1 & [(-> & O1 & K1)|(_ & Hn)]); [|contradiction]. rewrite Ew in E1. apply pair_equal_spec in E1 as [-> ->]. cbn [crashed] in E.
        destruct (use m (next (Closed (Ok tt))) c1) as [l1 c2] eqn:E2. apply pair_equal_spec in E as [<- <-]. specialize (B _ _ eq_refl).
        destruct (use_out m (next (Closed (Ok tt))) c1) as (more & Om). rewrite E2 in Om. cbn [snd] in Om.
        rewrite Om, O1, <- app_assoc in O. apply app_inv_head in O as <-. apply L_close.
        apply (IH _ c1); [|lia|exists c2; split; [exact E2|exact Om]]. split; [eapply has_same; eassumption|]. auto.
      * intros L. inversion L as [| | | |next0 ? ? ? ? ? l0 out0 L2]; subst. specialize (B _ _ eq_refl).
        destruct (close_app m kc ivc j c Kw (Z ltac:(discriminate))) as (y1 & c1 & E1 & H1 & [(-> & O1 & K1)|(_ & Hn)]); [|contradiction]. rewrite E1. cbn [crashed].
        destruct (close_writes _ _ _ _ E1) as [Rr Rb].
        destruct (proj2 (IH (Closed (Ok tt)) c1 buf k pend bs (j + 1) l0 out0 ltac:(split; [eapply has_same; eassumption|auto]) ltac:(lia)) L2) as (c2 & E2 & O2).
        rewrite E2. exists c2. split; [reflexivity|]. rewrite O2, O1, <- app_assoc. reflexivity.
Qed.

(** ** From the first byte *)
Lemma connected_talks m s p g ss n extra rest : healthy (writer_new p) -> clean s -> zlen (stream s) < 2 ^ 64 -> connecting m g ss (stream s) n extra rest ->
  exists c, client_new m s p g = (Ok tt, c) /\ w_out (c_writer c) = stage_out (Complete ss) /\
    talks m c (k_server (s_keys ss)) (iv_server (s_keys ss)) (k_client (s_keys ss)) (iv_client (s_keys ss)) [] n extra rest 1.
Proof.
  intros H C R K. destruct (connection_reads m s p g ss n extra rest H C R K) as (c & E & Ha & Rm). exists c. split; [exact E|].
  destruct (stream_accepted m s p g ss n extra rest H R K) as (Re & _).
  destruct (connected m s p g c E) as (ss' & Re' & _ & O & Kw & He & _). pose proof (reached_det _ _ _ _ _ Re Re') as <-.
  split; [exact O|]. split; [exact Ha|]. auto.
Qed.
Lemma connects_stream m s p g c : healthy (writer_new p) -> clean s -> zlen (stream s) + 1 < 2 ^ 64 -> client_new m s p g = (Ok tt, c) ->
  exists ss n extra rest, connecting m g ss (stream s) n extra rest.
Proof.
  intros H C R E. apply (building_connects m g (stream s) R). destruct (proj1 (building_iff m s p g (Ok tt) (w_out (c_writer c)) H C ltac:(lia))) as (st & B & _); eauto.
Qed.
Theorem sitting_iff m q s p g x l out : healthy (writer_new p) -> clean s -> zlen (stream s) + 1 < 2 ^ 64 -> 1 + spent q l < 2 ^ 64 ->
  ((exists c, sitting m q s p g = (x, l, c) /\ w_out (c_writer c) = out) <-> lifetime m g q (stream s) x l out).
Proof.
  intros H C R Sp. assert (R' : zlen (stream s) < 2 ^ 64) by lia. unfold sitting. split.
  - intros (c & E & <-). destruct (client_new m s p g) as [y c0] eqn:En. destruct y as [[]|e| |].
    1: { destruct (connects_stream m s p g c0 H C R En) as (ss & n & extra & rest & K). destruct (connected_talks m s p g ss n extra rest H C R' K) as (c1 & E1 & O & T).
         rewrite En in E1. apply pair_equal_spec in E1 as [_ <-]. destruct (use m q c0) as [l1 c2] eqn:Eu. apply pair_equal_spec in E as [E <-]. apply pair_equal_spec in E as [<- <-].
         destruct (use_out m q c0) as (more & Om). rewrite Eu in Om. cbn [snd] in Om. rewrite Om, O. eapply Life_led; [exact K|]. eapply use_iff; [exact T|exact Sp|]. eauto. }
    all: apply pair_equal_spec in E as [E <-]; apply pair_equal_spec in E as [<- <-].
    all: match type of En with _ = (?y, _) => destruct (proj1 (building_iff m s p g y (w_out (c_writer c0)) H C R')) as (st & B & ->); [eauto|] end; apply Life_refused; [discriminate|exact B].
  - intros Lt. revert Sp. destruct Lt as [x0 st N B|ss n extra rest l0 o K L]; intros Sp.
    + destruct (proj2 (building_iff m s p g x0 (all_sent x0 st) H C R')) as (c & E & O); [eauto|]. rewrite E. destruct x0 as [[]|e| |]; [congruence|eauto..].
    + destruct (connected_talks m s p g ss n extra rest H C R' K) as (c1 & E1 & O & T). rewrite E1.
      destruct (proj2 (use_iff m _ _ _ _ q c1 _ _ _ _ 1 l0 o T Sp) L) as (c2 & E2 & O2). rewrite E2. exists c2. rewrite O2, O. auto.
Qed.
(** a session comes to one end *)
Theorem lifetime_one m g q bs : zlen bs + 1 < 2 ^ 64 -> (forall l, 1 + spent q l < 2 ^ 64) ->
  exists x l out, lifetime m g q bs x l out /\ forall y l' out', lifetime m g q bs y l' out' -> y = x /\ l' = l /\ out' = out.
Proof.
  intros R Sp. assert (H : healthy (writer_new [])) by constructor. pose proof (source_clean bs) as C. pose proof (source_stream bs) as S.
  destruct (sitting m q (source bs) [] g) as [[x l] c] eqn:E. exists x, l, (w_out (c_writer c)).
  assert (I : forall y k o, (exists c, sitting m q (source bs) [] g = (y, k, c) /\ w_out (c_writer c) = o) <-> lifetime m g q bs y k o).
  { intros y k o. pose proof (sitting_iff m q (source bs) [] g y k o H C ltac:(rewrite S; exact R) (Sp k)) as X. rewrite S in X. exact X. }
  split; [apply I; eauto|]. intros y l' o L. apply I in L as (c' & E' & <-). rewrite E in E'. apply pair_equal_spec in E' as [E' <-]. apply pair_equal_spec in E' as [<- <-]. auto.
Qed.

(** ** The example program *)
Theorem showing_iff m s p g x shown out : healthy (writer_new p) -> clean s -> zlen (stream s) + 1 < 2 ^ 64 ->
  ((exists c, example m true s p g = (x, shown, c) /\ w_out (c_writer c) = out) <-> showing m g (stream s) x shown out).
Proof.
  intros H C R. assert (R' : zlen (stream s) < 2 ^ 64) by lia.
  assert (Run : forall ss n extra rest, connecting m g ss (stream s) n extra rest -> exists y buf k pend bs, pours ss (Z.to_nat 4096) [] n extra rest y buf k pend bs /\
    ((exists d, y = Ok d) \/ y = Panic) /\ exists c, example m true s p g = (match y with Ok _ => Ok tt | _ => Panic end, match y with Ok d => Some (padded (Z.to_nat 4096) d) | _ => None end, c) /\
      w_out (c_writer c) = stage_out (Complete ss) ++ utters ss 1 ApplicationDataTy head_request ++ match y with Ok _ => utters ss 2 AlertTy [x02; x00] | _ => [] end).
  { intros ss n extra rest K. destruct (connected_talks m s p g ss n extra rest H C R' K) as (c & E & O & (Ha & Rm & Kw & He)).
    destruct (write_small m _ _ 1 request c Kw ltac:(lia) request_legal He) as (c1 & E1 & H1 & R1 & B1 & O1 & KW1).
    pose proof (has_same m c c1 _ _ _ _ _ _ R1 B1 Ha) as Ha1. pose proof Ha as (((_ & _ & _ & Lk & Li & K0) & _) & _).
    destruct (filling_one _ _ (Z.to_nat 4096) [] n extra rest Lk Li K0 Rm) as (y & buf & k & pend & bs & F & _).
    destruct (filling_sound m _ _ _ _ _ _ _ _ _ _ _ _ F c1 Ha1 Rm) as (c2 & E2 & H2 & W2 & _).
    exists y, buf, k, pend, bs. split; [exact F|]. assert (Cx : (exists e, y = Ok e) \/ y = Panic) by (clear - F; destruct F; eauto). split; [exact Cx|].
    unfold example, from_tcp. rewrite E. cbn [unwrap]. rewrite E1. cbn [unwrap]. rewrite E2. destruct Cx as [(d & ->)| -> ]; cbn [unwrap].
    - destruct (close_app m _ _ 2 c2 ltac:(rewrite W2; exact KW1) ltac:(lia)) as (z & c3 & E3 & _ & [(-> & O3 & _)|(_ & Hn)]); [|rewrite W2 in Hn; contradiction].
      rewrite E3. cbn [unwrap]. exists c3. pose proof (read_length _ _ _ _ _ E2) as Ld. rewrite padded_eq, firstn_all2 by exact Ld. split; [reflexivity|].
      rewrite O3, W2, O1, O, request_text, <- !app_assoc. reflexivity.
    - exists c2. split; [reflexivity|]. rewrite W2, O1, O, request_text, app_nil_r. reflexivity. }
  assert (Ref : forall y st, y <> Ok tt -> building m g (stream s) y st -> exists c, example m true s p g = (Panic, None, c) /\ w_out (c_writer c) = all_sent y st).
  { intros y st N B. destruct (proj2 (building_iff m s p g y (all_sent y st) H C R')) as (c & E & O); [eauto|]. pose proof (new_halts m s p g) as Hl. rewrite E in Hl. cbn [fst] in Hl.
    exists c. split; [|exact O]. unfold example, from_tcp. rewrite E. destruct y as [[]|e| |]; [congruence|reflexivity|reflexivity|destruct Hl]. }
  split.
  - intros (c & E & <-). destruct (client_new m s p g) as [y c0] eqn:En. destruct y as [[]|e| |].
    1: { destruct (connects_stream m s p g c0 H C R En) as (ss & n & extra & rest & K). destruct (Run ss n extra rest K) as (y & buf & k & pend & bs & F & Cx & c2 & E2 & O).
         rewrite E in E2. apply pair_equal_spec in E2 as [E2 ->]. apply pair_equal_spec in E2 as [-> ->]. rewrite O. destruct Cx as [(d & ->)| -> ].
         - eapply X_shown; eassumption.
         - rewrite app_nil_r. eapply X_panic; eassumption. }
    all: match type of En with _ = (?y, _) => destruct (proj1 (building_iff m s p g y (w_out (c_writer c0)) H C R')) as (st & B & _); [eauto|]; destruct (Ref y st ltac:(discriminate) B) as (c2 & E2 & O) end.
    all: rewrite E in E2; apply pair_equal_spec in E2 as [E2 ->]; apply pair_equal_spec in E2 as [-> ->]; rewrite O; apply X_refused; [discriminate|exact B].
  - intros [y st N B|ss n extra rest buf k pend bs' K F|ss n extra rest d buf k pend bs' K F].
    + apply Ref; assumption.
    + destruct (Run ss n extra rest K) as (y & b2 & k2 & p2 & s2 & F2 & _ & c2 & E2 & O). assert (y = Panic) as ->.
      { destruct (connected_talks m s p g ss n extra rest H C R' K) as (c & _ & _ & ((((_ & _ & _ & Lk & Li & K0) & _) & _) & Rm & _)).
        destruct (filling_one _ _ (Z.to_nat 4096) [] n extra rest Lk Li K0 Rm) as (z & b3 & k3 & p3 & s3 & _ & U). destruct (U _ _ _ _ _ F) as (<- & _), (U _ _ _ _ _ F2) as (-> & _). reflexivity. }
      rewrite app_nil_r in O. eauto.
    + destruct (Run ss n extra rest K) as (y & b2 & k2 & p2 & s2 & F2 & _ & c2 & E2 & O). assert (y = Ok d) as ->.
      { destruct (connected_talks m s p g ss n extra rest H C R' K) as (c & _ & _ & ((((_ & _ & _ & Lk & Li & K0) & _) & _) & Rm & _)).
        destruct (filling_one _ _ (Z.to_nat 4096) [] n extra rest Lk Li K0 Rm) as (z & b3 & k3 & p3 & s3 & _ & U). destruct (U _ _ _ _ _ F) as (<- & _), (U _ _ _ _ _ F2) as (-> & _). reflexivity. }
      eauto.
Qed.

(** ** Witnesses *)
Lemma connecting_more m g ss bs n extra more : connecting m g ss bs n extra [] -> connecting m g ss (bs ++ more) n extra more.
Proof.
  intros (Su & l & msgs & clear & maj & min & fs & sealed & A1 & A2 & A3 & A4 & A5 & A6 & A7 & A8 & A9 & ->). split; [exact Su|].
  exists l, msgs, clear, maj, min, fs, sealed. repeat (split; [assumption|]). rewrite app_nil_r, <- !app_assoc. reflexivity.
Qed.
(** says back what it hears, in pieces of [n], and closes when it hears nothing *)
Fixpoint parrot (times n : nat) : application :=
  match times with
  | O => Quit
  | S t => Do (Read n) (fun a => match a with
      | Got (Ok []) => Do Close (fun _ => Quit)
      | Got (Ok d) => Do (Write d) (fun _ => parrot t n)
      | _ => Quit end)
  end.
Definition parrot_answers : list answer := [Got (Ok [x61; x62]); Wrote (Ok 2); Got (Ok []); Closed (Ok tt)].
Lemma started_63 : incomplete [x63]. Proof. apply none_iff. reflexivity. Qed.
Lemma poured key iv n : (2 <= n)%nat -> filling key iv n [] 2 [x63] (sealed_record key iv 2 ApplicationDataTy [x61; x62]) (Ok [x61; x62]) [] 3 [x63] [].
Proof.
  intros L. rewrite <- (app_nil_r (sealed_record _ _ _ _ _)).
  eapply (F_data key iv n [] 2 [x63] _ [x61; x62] 3 [x63] [] [x61; x62]); [cbn; lia| |].
  - apply (V_record key iv 2 [x63] ApplicationDataTy x03 x03 [x61; x62]); [exact started_63|reflexivity|cbv; discriminate|constructor].
  - cbn [length]. rewrite Nat.sub_0_r. destruct (Nat.eq_dec n 2) as [->|N].
    + apply (F_enough key iv 2 [x61; x62]). cbn; lia.
    + apply (F_stop key iv n [x61; x62] 3 [x63] [] IoFailure 3 [x63]); [cbn [length]; lia|]. apply V_end; [exact started_63|]. left. reflexivity.
Qed.
Lemma parrot_life ks ivs kc ivc : life ks ivs kc ivc (parrot 5 4) [] 2 [x63] (sealed_record ks ivs 2 ApplicationDataTy [x61; x62]) 1
  parrot_answers (sealed_record kc ivc 1 ApplicationDataTy [x61; x62] ++ sealed_record kc ivc 2 AlertTy [x02; x00]).
Proof.
  rewrite <- (app_nil_r (sealed_record kc ivc 2 _ _)). cbn [parrot]. eapply L_read; [apply poured; lia|]. cbv beta iota.
  replace (sealed_record kc ivc 1 ApplicationDataTy [x61; x62]) with (sealed_stream kc ivc 1 ApplicationDataTy [[x61; x62]]) by (cbn [sealed_stream]; rewrite app_nil_r; reflexivity).
  apply (L_write ks ivs kc ivc [x61; x62]); [apply parcels_small; split; cbv; discriminate|].
  eapply (L_read ks ivs kc ivc 4 _ [] 3 [x63] [] _ []); [apply (F_stop ks ivs 4 [] 3 [x63] [] IoFailure 3 [x63]); [cbn; lia|]; apply V_end; [exact started_63|left; reflexivity]|].
  apply L_close. apply L_quit.
Qed.
Lemma parrot_run m : exists bs ss, lifetime m one_tape (parrot 5 4) bs (Ok tt) parrot_answers
  (stage_out (Complete ss) ++ utters ss 1 ApplicationDataTy [x61; x62] ++ utters ss 2 AlertTy [x02; x00]).
Proof.
  destruct (odd_run m) as (ss & q & A & Q & K). exists (odd_stream ss q ++ sealed_record (k_server (s_keys ss)) (iv_server (s_keys ss)) 2 ApplicationDataTy [x61; x62]), ss.
  eapply Life_led; [apply connecting_more; exact K|]. apply parrot_life.
Qed.
Lemma showing_run m : exists ss before,
  showing m one_tape (before ++ sealed_record (k_server (s_keys ss)) (iv_server (s_keys ss)) 2 ApplicationDataTy [x61; x62]) (Ok tt) (Some (padded (Z.to_nat 4096) [x61; x62]))
    (stage_out (Complete ss) ++ utters ss 1 ApplicationDataTy head_request ++ utters ss 2 AlertTy [x02; x00]) /\
  showing m one_tape (before ++ sealed_record (k_server (s_keys ss)) (iv_server (s_keys ss)) 2 ChangeCipherSpecTy [x01]) Panic None
    (stage_out (Complete ss) ++ utters ss 1 ApplicationDataTy head_request) /\
  showing m one_tape [] Panic None (flight_hello (firstn 32 one_tape)).
Proof.
  destruct (odd_run m) as (ss & q & A & Q & K). exists ss, (odd_stream ss q). split; [|split].
  - eapply X_shown; [apply connecting_more; exact K|]. apply poured. lia.
  - eapply X_panic; [apply connecting_more; exact K|]. rewrite <- (app_nil_r (sealed_record _ _ _ _ _)). apply F_panic; [cbn [length]; lia|].
    apply (V_record _ _ 2 [x63] ChangeCipherSpecTy x03 x03 [x01]); [exact started_63|reflexivity|cbv; discriminate|constructor].
  - replace (flight_hello (firstn 32 one_tape)) with (all_sent (Err IoFailure) (Hello (firstn 32 one_tape))) by apply app_nil_r.
    apply X_refused; [discriminate|]. exact (proj1 (early_run m)).
Qed.
Theorem parcels_one d : exists fs, parcels d fs /\ forall fs', parcels d fs' -> fs' = fs.
Proof. eexists. split; [apply parcels_iff; reflexivity|]. intros fs' P. apply parcels_iff, P. Qed.
