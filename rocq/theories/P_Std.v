(** Proofs about the uses of the client: [read_exact], [read_to_end], the example program. *)
From Verif Require Import Spec_Std P_Util P_Codec P_RecordW P_RecordR P_Record P_Client P_Client2 P_App P_App2 P_App3 P_Client3 P_Client4 P_Client5 P_Panic P_Ops P_Eof P_Record2 P_Halt.
From Coq Require Import ZifyBool ZifyNat ZifyN.
Local Open Scope list_scope.
Local Open Scope Z_scope.
#[local] Opaque SHA256 HMAC aead_seal aead_decrypt aead_encrypt compute_keys PRF nmul.

(** ** One [read] *)
Lemma rd_dec m len done c x c' : rd m len done c x c' -> r_dec (c_reader c') = r_dec (c_reader c).
Proof.
  induction 1 as [done c L|done c x c' L B R IH|done c d r' x c' L B E R IH|done c k r' L B E|done c r' L B E|done c r' L B E];
    cbn [with_buf c_reader] in *; try reflexivity; try (exact IH); try (apply read_app_keys in E as [E _]; congruence).
Qed.
Lemma read_dec m n c x c' : client_read m n c = (x, c') -> r_dec (c_reader c') = r_dec (c_reader c).
Proof. intros E. eapply rd_dec, read_rd, E. Qed.
Lemma read_app_shrinks m r x r' : read_application_data m r = (x, r') -> (src_size (r_src r') <= src_size (r_src r))%nat.
Proof.
  intros E. destruct (read_app_absorbs m r) as (recs & A & _). rewrite E in A. apply absorbs_suffix in A as (p & Q). cbn [snd] in Q.
  rewrite !size_all, Q, app_length. lia.
Qed.
Definition less (c c' : client) : Prop := (src_size (r_src (c_reader c)) < src_size (r_src (c_reader c')))%nat \/
  (src_size (r_src (c_reader c)) = src_size (r_src (c_reader c')))%nat /\ (length (c_buf c) < length (c_buf c'))%nat.
Definition weak (c c' : client) : Prop := (src_size (r_src (c_reader c)) < src_size (r_src (c_reader c')))%nat \/
  (src_size (r_src (c_reader c)) = src_size (r_src (c_reader c')))%nat /\ (length (c_buf c) <= length (c_buf c'))%nat.
Lemma rd_less m len done c x c' : rd m len done c x c' -> weak c' c /\ forall d, x = Ok d -> d = done \/ less c' c.
Proof.
  induction 1 as [done c L|done c x c' L B R IH|done c d r' x c' L B E R IH|done c k r' L B E|done c r' L B E|done c r' L B E].
  - split; [right; lia|]. intros d Q. apply Ok_inj in Q. auto.
  - destruct IH as [IH _].
    assert (Lb : (length (skipn (len - length done) (c_buf c)) < length (c_buf c))%nat).
    { rewrite skipn_length. destruct (c_buf c); [congruence|]. cbn [length]. lia. }
    assert (X : less c' c) by (unfold weak, less in *; cbn [with_buf c_reader c_buf] in IH; lia).
    split; [unfold weak, less in *; lia|auto].
  - destruct IH as [IH _]. apply read_app_src in E.
    assert (X : less c' c) by (unfold weak, less in *; cbn [with_buf c_reader c_buf] in IH; lia).
    split; [unfold weak, less in *; lia|auto].
  - apply read_app_shrinks in E. split; [unfold weak; cbn [with_buf c_reader c_buf length]; lia|]. intros d Q. apply Ok_inj in Q. auto.
  - apply read_app_shrinks in E. split; [unfold weak; cbn [with_buf c_reader c_buf length]; lia|discriminate].
  - apply read_app_shrinks in E. split; [unfold weak; cbn [with_buf c_reader c_buf length]; lia|discriminate].
Qed.
Lemma read_less m n c d c' : client_read m n c = (Ok d, c') -> d <> [] -> less c' c.
Proof. intros E N. apply read_rd, rd_less in E as [_ E]. destruct (E d eq_refl); [congruence|assumption]. Qed.
Lemma less_ind (P : client -> Prop) : (forall c, (forall c', less c' c -> P c') -> P c) -> forall c, P c.
Proof.
  intros H c. remember (src_size (r_src (c_reader c))) as n eqn:En. revert c En.
  induction n as [n IHn] using (well_founded_induction lt_wf). intros c En.
  remember (length (c_buf c)) as k eqn:Ek. revert c En Ek.
  induction k as [k IHk] using (well_founded_induction lt_wf). intros c En Ek.
  apply H. intros c' [L|[Q L]]; [eapply IHn; [|reflexivity]; lia|]. eapply IHk; [|congruence|reflexivity]. lia.
Qed.
Lemma read_length m n c d c' : client_read m n c = (Ok d, c') -> (length d <= n)%nat.
Proof.
  intros E. apply read_rd, rd_conserves in E as (k & _ & _ & _ & L & _). apply L. cbn [length]. lia.
Qed.

(** ** [read_exact] *)
Lemma gathered_nil m c : gathered m c [] c.
Proof. exists [], []. repeat split. constructor. Qed.
Lemma gathered_cons m n c d c1 b c' : (0 < n)%nat -> client_read m n c = (Ok d, c1) -> gathered m c1 b c' -> gathered m c (d ++ b) c'.
Proof.
  intros Hn E (sizes & outs & R & Q & F). exists (n :: sizes), (d :: outs). cbn [client_reads map concat]. rewrite E, R. split; [reflexivity|].
  split; [congruence|constructor; assumption].
Qed.
Lemma exact_loop m n : forall fuel done c x c', (n - length done <= fuel)%nat -> (length done <= n)%nat -> read_exact_loop m fuel n done c = (x, c') ->
  match x with
  | Ok e => exact_means m n e c' /\ exists b, stored e = done ++ b /\ gathered m c b c'
  | Err _ => False
  | Panic => True
  | Diverge => ~ terminates (r_dec (c_reader c))
  end.
Proof.
  induction fuel as [|f IH]; intros done c x c' F L E; cbn [read_exact_loop] in E; destruct (Nat.ltb_spec (length done) n) as [Lt|Ge].
  - lia.
  - apply pair_equal_spec in E as [<- <-]. cbn [exact_means stored]. split; [lia|]. exists []. rewrite app_nil_r. split; [reflexivity|apply gathered_nil].
  - unfold mbind in E. destruct (client_read m (n - length done) c) as [y c1] eqn:R.
    destruct y as [d|k| |]; try (apply pair_equal_spec in E as [<- <-]).
    + pose proof (read_length _ _ _ _ _ R) as Ld. destruct d as [|b0 d0].
      * apply pair_equal_spec in E as [<- <-]. cbn [exact_means stored]. destruct (short_read m _ _ _ _ R ltac:(cbn [length]; lia)) as (B & r & k & Er).
        split; [eauto|]. exists []. rewrite app_nil_r. split; [reflexivity|]. change (@nil byte) with (@nil byte ++ []).
        eapply gathered_cons; [|exact R|apply gathered_nil]. lia.
      * remember (b0 :: d0) as d eqn:Ed. assert (Nd : (0 < length d)%nat) by (subst d; cbn; lia). clear Ed b0 d0.
        specialize (IH (done ++ d) c1 x c'). rewrite app_length in IH. specialize (IH ltac:(lia) ltac:(lia) E).
        destruct x as [e|k| |]; [|exact IH|exact I|].
        -- destruct IH as (M & b & Q & G). split; [exact M|]. exists (d ++ b). rewrite app_assoc. split; [exact Q|]. eapply gathered_cons; [|exact R|exact G]. lia.
        -- apply read_dec in R. rewrite <- R. exact IH.
    + eapply (never_errs m). rewrite R. reflexivity.
    + exact I.
    + intros T. pose proof (client_read_halts m (n - length done) c T) as H. rewrite R in H. exact H.
  - apply pair_equal_spec in E as [<- <-]. cbn [exact_means stored]. split; [lia|]. exists []. rewrite app_nil_r. split; [reflexivity|apply gathered_nil].
Qed.
Theorem exact_result m n c x c' : read_exact m n c = (x, c') ->
  match x with
  | Ok e => exact_means m n e c' /\ gathered m c (stored e) c'
  | Err _ => False
  | Panic => True
  | Diverge => ~ terminates (r_dec (c_reader c))
  end.
Proof.
  intros E. apply exact_loop in E; [|cbn [length]; lia|cbn [length]; lia]. destruct x; try exact E.
  destruct E as (M & b & -> & G). auto.
Qed.
Theorem exact_keyed m n key c x c' : r_dec (c_reader c) = Some (new_decryptor m key) -> read_exact m n c = (x, c') ->
  x = Panic \/ exists e, x = Ok e /\ exact_means m n e c' /\ gathered m c (stored e) c'.
Proof.
  intros D E. apply exact_result in E. destruct x as [e|k| |]; [right; exists e; tauto|destruct E|left; reflexivity|].
  destruct E. rewrite D. apply decryptor_terminates.
Qed.
Lemma exact_supplied m n : forall fuel done c D, (n - length done <= fuel)%nat -> (length done <= n)%nat -> supplies m (c_reader c) D ->
  fst (read_exact_loop m fuel n done c) = Ok (exact_of n (done ++ c_buf c ++ D)).
Proof.
  induction fuel as [|f IH]; intros done c D F L HD; cbn [read_exact_loop]; destruct (Nat.ltb_spec (length done) n) as [Lt|Ge]; try lia.
  2: unfold mbind; destruct (client_read m (n - length done) c) as [y c1] eqn:R; apply read_rd in R;
     destruct (rd_supplies _ _ _ _ _ _ R D HD) as (-> & D' & HD' & Q); cbn [length app] in *; rewrite Nat.sub_0_r in *;
     remember (c_buf c ++ D) as T eqn:ET.
  2: destruct (firstn (n - length done) T) as [|b0 d0] eqn:Ef.
  - cbn [mret fst]. unfold exact_of. rewrite app_length. replace (n <=? _)%nat with true by (symmetry; apply Nat.leb_le; lia).
    do 2 f_equal. rewrite firstn_app. replace (n - length done)%nat with 0%nat by lia. rewrite firstn_O, app_nil_r, firstn_all2 by lia. reflexivity.
  - assert (T = []) as -> by (destruct T; [reflexivity|]; destruct (n - length done)%nat eqn:En; [lia|discriminate Ef]).
    rewrite app_nil_r. cbn [mret fst]. unfold exact_of. replace (n <=? _)%nat with false by (symmetry; apply Nat.leb_gt; lia). reflexivity.
  - rewrite <- Ef. assert (Lf : length (firstn (n - length done) T) = S (length d0)) by (rewrite Ef; reflexivity). rewrite firstn_length in Lf.
    rewrite (IH _ c1 D'); [|rewrite app_length, firstn_length; lia|rewrite app_length, firstn_length; lia|exact HD'].
    rewrite Q, <- app_assoc, firstn_skipn. reflexivity.
  - cbn [mret fst]. unfold exact_of. rewrite app_length. replace (n <=? _)%nat with true by (symmetry; apply Nat.leb_le; lia).
    do 2 f_equal. rewrite firstn_app. replace (n - length done)%nat with 0%nat by lia. rewrite firstn_O, app_nil_r, firstn_all2 by lia. reflexivity.
Qed.
Lemma ended_supplies m key iv rest c k fs : serving m c key iv k fs rest -> clean (r_src (c_reader c)) -> k + zlen fs + 1 < 2 ^ 64 ->
  ending key iv (k + zlen fs) rest -> supplies m (c_reader c) (concat fs).
Proof.
  intros (Hk & S & F & _ & NP) C K He. generalize dependent (c_reader c). clear c. revert k K He.
  induction fs as [|f fs IH]; intros k K He r Hk S NP C; cbn [concat sealed_stream] in *.
  - change (zlen (@nil bytes)) with 0 in *. rewrite Z.add_0_r in *. eapply ending_supplies; eauto.
  - inversion F; subst. rewrite zlen_cons in *. pose proof (zlen_nonneg fs). rewrite <- app_assoc in S.
    destruct (data_clean m r key iv k f _ Hk S ltac:(assumption) ltac:(lia) NP C) as (r' & E & Hk' & S' & NP' & C').
    eapply Su_data; [exact E|]. eapply (IH ltac:(assumption) (k + 1)); eauto; [lia|]. replace (k + 1 + zlen fs) with (k + (1 + zlen fs)) by lia. exact He.
Qed.
Theorem exact_served m key iv rest n c k fs : serving m c key iv k fs rest -> clean (r_src (c_reader c)) -> k + zlen fs + 1 < 2 ^ 64 ->
  ending key iv (k + zlen fs) rest -> fst (read_exact m n c) = Ok (exact_of n (c_buf c ++ concat fs)).
Proof.
  intros S C K He. unfold read_exact. rewrite (exact_supplied m n n [] c (concat fs)); [reflexivity|cbn [length]; lia|cbn [length]; lia|].
  eapply ended_supplies; eauto.
Qed.

(** ** [read_to_end] *)
Lemma to_end_det m sz i done c x c1 : to_end m sz i done c x c1 -> forall y c2, to_end m sz i done c y c2 -> y = x /\ c2 = c1.
Proof.
  induction 1; intros y cc Q; inversion Q; subst; try congruence;
    try (match goal with A : client_read ?m ?n ?c = (Ok (_ :: _), _), B : client_read ?m ?n ?c = (Ok (_ :: _), _) |- _ => rewrite A in B; inversion B; subst; auto end);
    try (match goal with A : client_read ?m ?n ?c = _, B : client_read ?m ?n ?c = _ |- _ => rewrite A in B; inversion B; subst; auto end).
Qed.
Lemma to_end_total m sz : forall c i done, exists x c', to_end m sz i done c x c'.
Proof.
  intros c. induction c as [c IH] using less_ind. intros i done. destruct (client_read m (S (sz i)) c) as [[[|b d]|k| |] c1] eqn:E.
  - eexists _, _. eapply To_stop; eauto.
  - destruct (IH c1 ltac:(eapply read_less; [exact E|discriminate]) (S i) (done ++ b :: d)) as (x & c' & H). eexists _, _. eapply To_more; eauto.
  - eexists _, _. eapply To_err; eauto.
  - eexists _, _. eapply To_panic; eauto.
  - eexists _, _. eapply To_diverge; eauto.
Qed.
Lemma to_end_means m sz i done c x c' : to_end m sz i done c x c' ->
  match x with
  | Ok b => (exists d, b = done ++ d /\ gathered m c d c') /\ c_buf c' = [] /\ exists r k, read_application_data m r = (Err k, c_reader c')
  | Err _ => False
  | Panic => True
  | Diverge => ~ terminates (r_dec (c_reader c))
  end.
Proof.
  induction 1 as [i done c c' E|i done c b d c1 x c' E R IH|i done c k c' E|i done c c' E|i done c c' E].
  - destruct (short_read m _ _ _ _ E ltac:(cbn [length]; lia)) as (B & X). split; [|auto]. exists []. rewrite app_nil_r. split; [reflexivity|].
    change (@nil byte) with (@nil byte ++ []). eapply gathered_cons; [|exact E|apply gathered_nil]. lia.
  - destruct x as [o|k| |]; try exact IH.
    + destruct IH as ((d' & -> & G) & X). split; [|exact X]. exists ((b :: d) ++ d'). rewrite app_assoc. split; [reflexivity|]. eapply gathered_cons; [|exact E|exact G]. lia.
    + apply read_dec in E. rewrite <- E. exact IH.
  - eapply (never_errs m). rewrite E. reflexivity.
  - exact I.
  - intros T. pose proof (client_read_halts m (S (sz i)) c T) as H. rewrite E in H. exact H.
Qed.
Theorem to_end_result m sz c : exists x c', to_end m sz 0 [] c x c' /\ (forall y c2, to_end m sz 0 [] c y c2 -> y = x /\ c2 = c') /\
  match x with
  | Ok b => gathered m c b c' /\ c_buf c' = [] /\ exists r k, read_application_data m r = (Err k, c_reader c')
  | Err _ => False
  | Panic => True
  | Diverge => ~ terminates (r_dec (c_reader c))
  end.
Proof.
  destruct (to_end_total m sz c 0 []) as (x & c' & H). exists x, c'. split; [exact H|]. split; [exact (to_end_det _ _ _ _ _ _ _ H)|].
  apply to_end_means in H. destruct x; try exact H. destruct H as ((d & -> & G) & X). auto.
Qed.
Theorem to_end_keyed m sz key c : r_dec (c_reader c) = Some (new_decryptor m key) ->
  exists x c', to_end m sz 0 [] c x c' /\ (forall y c2, to_end m sz 0 [] c y c2 -> y = x /\ c2 = c') /\
    (x = Panic \/ exists b, x = Ok b /\ gathered m c b c' /\ c_buf c' = [] /\ exists r k, read_application_data m r = (Err k, c_reader c')).
Proof.
  intros D. destruct (to_end_result m sz c) as (x & c' & T & U & H). exists x, c'. split; [exact T|]. split; [exact U|].
  destruct x as [b|k| |]; [right; exists b; tauto|destruct H|left; reflexivity|]. destruct H. rewrite D. apply decryptor_terminates.
Qed.
Lemma to_end_supplied m sz i done c x c' : to_end m sz i done c x c' -> forall D, supplies m (c_reader c) D -> x = Ok (done ++ c_buf c ++ D).
Proof.
  induction 1 as [i done c c' E|i done c b d c1 x c' E R IH|i done c k c' E|i done c c' E|i done c c' E]; intros D HD;
    pose proof (read_rd _ _ _ _ _ E) as Q; destruct (rd_supplies _ _ _ _ _ _ Q D HD) as (X & D' & HD' & Y); cbn [length app] in *; rewrite Nat.sub_0_r in *; try discriminate X.
  - destruct (c_buf c ++ D); [rewrite app_nil_r; reflexivity|discriminate X].
  - rewrite (IH D' HD'), Y. apply Ok_inj in X. rewrite X, <- app_assoc, firstn_skipn. reflexivity.
Qed.
Theorem to_end_served m key iv rest sz c k fs : serving m c key iv k fs rest -> clean (r_src (c_reader c)) -> k + zlen fs + 1 < 2 ^ 64 ->
  ending key iv (k + zlen fs) rest -> exists c', to_end m sz 0 [] c (Ok (c_buf c ++ concat fs)) c'.
Proof.
  intros S C K He. destruct (to_end_total m sz c 0 []) as (x & c' & H).
  rewrite (to_end_supplied m sz _ _ _ _ _ H (concat fs)) in H by (eapply ended_supplies; eauto). eauto.
Qed.

(** ** Records nobody made *)
Lemma exact_full m fuel n d c c' : (0 < n)%nat -> length d = n -> client_read m n c = (Ok d, c') -> read_exact_loop m (S fuel) n [] c = (Ok (Filled d), c').
Proof.
  intros Hn L E. cbn [read_exact_loop length]. replace (0 <? n)%nat with true by (symmetry; apply Nat.ltb_lt; lia).
  rewrite Nat.sub_0_r. unfold mbind. rewrite E. destruct d as [|b d]; [cbn in L; lia|]. cbn [app].
  destruct fuel; cbn [read_exact_loop]; replace (length (b :: d) <? n)%nat with false by (symmetry; apply Nat.ltb_ge; lia); reflexivity.
Qed.
Lemma exact_step m f n done d c c1 : (length done < n)%nat -> client_read m (n - length done) c = (Ok d, c1) -> d <> [] ->
  read_exact_loop m (S f) n done c = read_exact_loop m f n (done ++ d) c1.
Proof.
  intros L E N. cbn [read_exact_loop]. replace (length done <? n)%nat with true by (symmetry; apply Nat.ltb_lt; lia). unfold mbind. rewrite E.
  destruct d; [congruence|reflexivity].
Qed.
Lemma exact_done m f n done c : (n <= length done)%nat -> read_exact_loop m f n done c = (Ok (Filled done), c).
Proof. intros L. destruct f; cbn [read_exact_loop]; replace (length done <? n)%nat with false by (symmetry; apply Nat.ltb_ge; lia); reflexivity. Qed.
Theorem exact_after_forgery m c key iv k t maj min z f rest : keyed m (c_reader c) key iv k -> no_pending (c_reader c) -> c_buf c = [] ->
  k + 1 < 2 ^ 64 -> legal_fragment f -> zlen z <= 16384 + 2048 ->
  (forall p, z <> aead_seal key (rfc_nonce iv k) (rfc_ad k t maj min (zlen z - 16)) p) ->
  stream (r_src (c_reader c)) = wire t maj min z ++ sealed_record key iv k ApplicationDataTy f ++ rest ->
  exists c1 c2, read_exact m (length f) c = (Ok (UnexpectedEof []), c1) /\ read_exact m (length f) c1 = (Ok (Filled f), c2).
Proof.
  intros K NP B Hk L Lz Nf S. assert (Lf : (0 < length f)%nat) by (destruct L as [L _]; unfold zlen in L; lia).
  destruct (data_after_forgery m c key iv k t maj min z f (length f) rest K NP B Hk L Lz Nf Lf S) as (c1 & c2 & E1 & E2).
  exists c1, c2. unfold read_exact. destruct (length f) as [|n] eqn:En; [lia|]. split.
  - cbn [read_exact_loop length]. change (0 <? Datatypes.S n)%nat with true. unfold mbind. rewrite Nat.sub_0_r, E1. reflexivity.
  - apply exact_full; [lia|exact En|exact E2].
Qed.
(** data, a record nobody made, data: the record in between leaves no trace *)
Theorem exact_over_forgery m c key iv k t maj min z f1 f2 rest : keyed m (c_reader c) key iv k -> no_pending (c_reader c) -> c_buf c = [] ->
  k + 2 < 2 ^ 64 -> legal_fragment f1 -> legal_fragment f2 -> zlen z <= 16384 + 2048 ->
  (forall p, z <> aead_seal key (rfc_nonce iv (k + 1)) (rfc_ad (k + 1) t maj min (zlen z - 16)) p) ->
  stream (r_src (c_reader c)) = sealed_record key iv k ApplicationDataTy f1 ++ wire t maj min z ++ sealed_record key iv (k + 1) ApplicationDataTy f2 ++ rest ->
  exists c', read_exact m (length (f1 ++ f2)) c = (Ok (Filled (f1 ++ f2)), c').
Proof.
  intros K NP B Hk [L1 L1'] [L2 L2'] Lz Nf S. assert (P1 : (0 < length f1)%nat) by (unfold zlen in L1; lia). assert (P2 : (0 < length f2)%nat) by (unfold zlen in L2; lia).
  destruct (read_app_data m _ key iv k f1 _ K S L1' ltac:(lia) NP) as (r1 & E1 & K1 & S1 & NP1).
  destruct (read_app_forged m _ key iv (k + 1) t maj min z _ K1 S1 Lz ltac:(lia) Nf NP1) as (r2 & E2 & K2 & S2 & NP2).
  destruct (read_app_data m r2 key iv (k + 1) f2 rest K2 S2 L2' ltac:(lia) NP2) as (r3 & E3 & _).
  assert (R1 : client_read m (length f1 + length f2) c = (Ok f1, with_buf c r2 [])).
  { apply rd_read. eapply Rd_data; [cbn [length]; lia|exact B|exact E1|]. cbn [length app]. rewrite Nat.sub_0_r, firstn_all2, skipn_all2 by lia.
    change (with_buf c r2 []) with (with_buf (with_buf c r1 []) r2 []). eapply Rd_err; [lia|reflexivity|exact E2]. }
  assert (R2 : client_read m (length f2) (with_buf c r2 []) = (Ok f2, with_buf c r3 [])).
  { apply rd_read. eapply Rd_data; [cbn [length]; lia|reflexivity|exact E3|]. cbn [length app]. rewrite Nat.sub_0_r, firstn_all2, skipn_all2 by lia.
    apply Rd_full. lia. }
  exists (with_buf c r3 []). unfold read_exact. rewrite app_length. remember (length f1 + length f2)%nat as n eqn:En.
  destruct n as [|[|n]]; try lia.
  rewrite (exact_step m _ _ [] f1 c (with_buf c r2 [])); [|cbn [length]; lia|cbn [length]; exact R1|intros ->; cbn in P1; lia].
  rewrite (exact_step m _ _ _ f2 _ (with_buf c r3 [])); [|cbn [app]; lia| |intros ->; cbn in P2; lia].
  - apply exact_done. rewrite !app_length. cbn [app length]. lia.
  - cbn [app]. rewrite En. replace (length f1 + length f2 - length f1)%nat with (length f2) by lia. exact R2.
Qed.
Theorem to_end_after_forgery m sz c key iv k t maj min z f rest : keyed m (c_reader c) key iv k -> no_pending (c_reader c) -> c_buf c = [] ->
  k + 1 < 2 ^ 64 -> legal_fragment f -> zlen z <= 16384 + 2048 ->
  (forall p, z <> aead_seal key (rfc_nonce iv k) (rfc_ad k t maj min (zlen z - 16)) p) ->
  stream (r_src (c_reader c)) = wire t maj min z ++ sealed_record key iv k ApplicationDataTy f ++ rest ->
  exists c1 c2, to_end m sz 0 [] c (Ok []) c1 /\ read_exact m (length f) c1 = (Ok (Filled f), c2).
Proof.
  intros K NP B Hk L Lz Nf S. assert (Lf : (0 < length f)%nat) by (destruct L as [L _]; unfold zlen in L; lia).
  destruct (data_after_forgery m c key iv k t maj min z f (Datatypes.S (sz 0%nat)) rest K NP B Hk L Lz Nf ltac:(lia) S) as (c1 & c2 & E1 & E2).
  exists c1, c2. split; [apply To_stop; exact E1|]. unfold read_exact. destruct (length f) as [|n] eqn:En; [lia|]. apply exact_full; [lia|exact En|exact E2].
Qed.
Lemma exact_refuted m : exists s g ss c z f c1 c2, client_new m s [] g = (Ok tt, c) /\ reached m s g (Complete ss) /\
  stream (r_src (c_reader c)) = e_record ApplicationDataTy z ++ sealed_record (k_server (s_keys ss)) (iv_server (s_keys ss)) 1 ApplicationDataTy f /\
  (forall a p, z <> aead_seal (k_server (s_keys ss)) (rfc_nonce (iv_server (s_keys ss)) 1) a p) /\
  f <> [] /\ read_exact m (length f) c = (Ok (UnexpectedEof []), c1) /\ read_exact m (length f) c1 = (Ok (Filled f), c2).
Proof.
  destruct (plain_run m (fun ss => e_record ApplicationDataTy [x00] ++
     sealed_record (k_server (s_keys ss)) (iv_server (s_keys ss)) 1 ApplicationDataTy [x41] ++ [])) as (s & g & ss & c & E & R & K & Rb & B & S).
  assert (F : forall a p, [x00] <> aead_seal (k_server (s_keys ss)) (rfc_nonce (iv_server (s_keys ss)) 1) a p) by (intros a; apply short_forged; cbn; lia).
  destruct (exact_after_forgery m c _ _ 1 ApplicationDataTy x03 x03 [x00] [x41] [] K (no_pending_nil _ Rb) B ltac:(lia) ltac:(split; cbv; discriminate)
    ltac:(cbv; discriminate) (F _) S) as (c1 & c2 & E1 & E2).
  exists s, g, ss, c, [x00], [x41], c1, c2. rewrite app_nil_r in S. split; [exact E|]. split; [exact R|]. split; [exact S|]. split; [exact F|].
  split; [discriminate|]. split; [exact E1|exact E2].
Qed.
Lemma to_end_refuted m : exists s g ss c z f, client_new m s [] g = (Ok tt, c) /\ reached m s g (Complete ss) /\
  stream (r_src (c_reader c)) = e_record ApplicationDataTy z ++ sealed_record (k_server (s_keys ss)) (iv_server (s_keys ss)) 1 ApplicationDataTy f /\
  (forall a p, z <> aead_seal (k_server (s_keys ss)) (rfc_nonce (iv_server (s_keys ss)) 1) a p) /\
  f <> [] /\ forall sz, exists c1 c2, to_end m sz 0 [] c (Ok []) c1 /\ read_exact m (length f) c1 = (Ok (Filled f), c2).
Proof.
  destruct (plain_run m (fun ss => e_record ApplicationDataTy [x00] ++
     sealed_record (k_server (s_keys ss)) (iv_server (s_keys ss)) 1 ApplicationDataTy [x41] ++ [])) as (s & g & ss & c & E & R & K & Rb & B & S).
  assert (F : forall a p, [x00] <> aead_seal (k_server (s_keys ss)) (rfc_nonce (iv_server (s_keys ss)) 1) a p) by (intros a; apply short_forged; cbn; lia).
  exists s, g, ss, c, [x00], [x41]. split; [exact E|]. split; [exact R|]. split; [rewrite app_nil_r in S; exact S|]. split; [exact F|].
  split; [discriminate|]. intros sz. exact (to_end_after_forgery m sz c _ _ 1 ApplicationDataTy x03 x03 [x00] [x41] [] K (no_pending_nil _ Rb) B ltac:(lia) ltac:(split; cbv; discriminate)
    ltac:(cbv; discriminate) (F _) S).
Qed.
(** a cut connection: all went well, says [read_to_end] *)
Lemma to_end_truncated m : exists s g ss c sent rest, client_new m s [] g = (Ok tt, c) /\ reached m s g (Complete ss) /\ clean s /\
  sent = sealed_stream (k_server (s_keys ss)) (iv_server (s_keys ss)) 1 ApplicationDataTy [[x61]; [x62]] /\
  sent = stream (r_src (c_reader c)) ++ rest /\ rest <> [] /\
  forall sz, exists c', to_end m sz 0 [] c (Ok [x61]) c'.
Proof.
  set (part := fun ss => firstn 10 (sealed_record (k_server (s_keys ss)) (iv_server (s_keys ss)) 2 ApplicationDataTy [x62])).
  destruct (conforming_run m plain_server (fun ss => sealed_stream (k_server (s_keys ss)) (iv_server (s_keys ss)) 1 ApplicationDataTy [[x61]] ++ part ss) plain_wf)
    as (s & ss & c & C & _ & E & R & Hk & _ & _ & Rb & B & S).
  assert (Ln : (10 < length (sealed_record (k_server (s_keys ss)) (iv_server (s_keys ss)) 2 ApplicationDataTy [x62]))%nat).
  { unfold sealed_record, e_record, wire. repeat (rewrite ?app_length, ?be_length; cbn [length]). pose proof (sealed_len (k_server (s_keys ss)) (rfc_nonce (iv_server (s_keys ss)) 2) (rfc_ad 2 ApplicationDataTy x03 x03 (zlen [x62])) [x62]) as L.
    unfold zlen in L |- *. cbn [length] in *. lia. }
  exists s, one_tape, ss, c, (sealed_stream (k_server (s_keys ss)) (iv_server (s_keys ss)) 1 ApplicationDataTy [[x61]; [x62]]),
    (skipn 10 (sealed_record (k_server (s_keys ss)) (iv_server (s_keys ss)) 2 ApplicationDataTy [x62])).
  do 3 (split; [assumption|]). split; [reflexivity|]. split; [|split].
  - rewrite S. unfold part. cbn [sealed_stream]. change (1 + 1) with 2. rewrite !app_nil_r, <- app_assoc, firstn_skipn. reflexivity.
  - intros X. apply (f_equal (@length byte)) in X. rewrite skipn_length in X. cbn [length] in X. lia.
  - intros sz. destruct (to_end_served m (k_server (s_keys ss)) (iv_server (s_keys ss)) (part ss) sz c 1 [[x61]]) as (c' & H).
    + split; [exact Hk|]. split; [exact S|]. split; [constructor; [discriminate|constructor]|]. split; [reflexivity|apply no_pending_nil; exact Rb].
    + eapply connected_clean; eauto.
    + reflexivity.
    + apply End_cut with (more := skipn 10 (sealed_record (k_server (s_keys ss)) (iv_server (s_keys ss)) 2 ApplicationDataTy [x62]))
        (t := ApplicationDataTy) (maj := x03) (min := x03) (f := aead_seal (k_server (s_keys ss)) (rfc_nonce (iv_server (s_keys ss)) 2) (rfc_ad 2 ApplicationDataTy x03 x03 (zlen [x62])) [x62]).
      * unfold part. rewrite firstn_skipn. reflexivity.
      * intros X. apply (f_equal (@length byte)) in X. rewrite skipn_length in X. cbn [length] in X. lia.
      * rewrite sealed_len. discriminate.
    + rewrite B in H. exists c'. exact H.
Qed.

(** ** [from_tcp] and the example program *)
Theorem not_cloned m s p g : exists c, from_tcp m false s p g = (Err IoFailure, c) /\ w_out (c_writer c) = [] /\ r_src (c_reader c) = s /\ c_rng c = g.
Proof. eexists. split; [reflexivity|]. auto. Qed.
Theorem cloned m s p g : from_tcp m true s p g = client_new m s p g.
Proof. reflexivity. Qed.
Lemma request_text : request = head_request.
Proof. reflexivity. Qed.
Lemma request_legal : legal_fragment request.
Proof. split; cbv; discriminate. Qed.
Lemma write_small m key iv k buf c : keyed_w m (c_writer c) key iv k -> k + 1 < 2 ^ 64 -> legal_fragment buf -> healthy (c_writer c) ->
  exists c', client_write m buf c = (Ok (zlen buf), c') /\ healthy (c_writer c') /\ c_reader c' = c_reader c /\ c_buf c' = c_buf c /\
    w_out (c_writer c') = w_out (c_writer c) ++ sealed_record key iv k ApplicationDataTy buf /\ keyed_w m (c_writer c') key iv (k + 1).
Proof.
  intros (E & V & C & Lk & Li & K0) K L He.
  destruct (write_one_sealed m ApplicationDataTy buf (c_writer c) key iv L Lk Li E V ltac:(lia) ltac:(lia)) as (x & w' & W & Em & A & B & H & D).
  destruct Em as [[-> O]|(-> & Hn & _)]; [|contradiction]. exists (Client (c_reader c) w' (c_rng c) (c_buf c)).
  unfold client_write, client_write_all, or_alert, mbind, on_writer, write_application_data. rewrite E, W. cbn [c_writer c_reader c_buf].
  split; [reflexivity|]. split; [auto|]. do 2 (split; [reflexivity|]). rewrite C in *. split; [exact O|]. specialize (D eq_refl).
  repeat split; try congruence. lia.
Qed.
Lemma padded_eq n d : padded n d = firstn n d ++ repeat x00 (n - length d).
Proof.
  unfold padded. rewrite firstn_app. f_equal. replace n with ((n - length d) + (n - (n - length d)))%nat at 2 by lia. rewrite repeat_app, firstn_app, repeat_length, Nat.sub_diag, firstn_O, app_nil_r.
  apply firstn_all2. rewrite repeat_length. lia.
Qed.
Lemma example_from m s p g c ck civ key iv k data rest : client_new m s p g = (Ok tt, c) -> clean s ->
  keyed_w m (c_writer c) ck civ 1 -> healthy (c_writer c) -> serving m c key iv k data rest -> c_buf c = [] ->
  k + zlen data + 1 < 2 ^ 64 -> ending key iv (k + zlen data) rest ->
  exists c', example m true s p g = (Ok tt, Some (padded (Z.to_nat 4096) (concat data)), c') /\
    w_out (c_writer c') = w_out (c_writer c) ++ sealed_record ck civ 1 ApplicationDataTy head_request ++ sealed_record ck civ 2 AlertTy [x02; x00].
Proof.
  intros E Cl KW Hc Sv Bc Lk He.
  destruct (write_small m _ _ 1 request c KW ltac:(lia) request_legal Hc) as (c1 & E1 & H1 & R1 & B1 & O1 & KW1).
  destruct (client_read m (Z.to_nat 4096) c1) as [x c2] eqn:E2.
  assert (Su : supplies m (c_reader c1) (concat data)).
  { rewrite R1. eapply ended_supplies; [exact Sv|eapply connected_clean; eauto|exact Lk|exact He]. }
  pose proof (read_writer _ _ _ _ _ E2) as [Wr _].
  destruct (rd_supplies _ _ _ _ _ _ (read_rd _ _ _ _ _ E2) _ Su) as (-> & _). cbn [length app] in E2. rewrite Nat.sub_0_r, B1, Bc in E2. cbn [app] in E2.
  rewrite <- Wr in *.
  destruct (close_app m _ _ 2 c2 KW1 ltac:(lia)) as (y & c3 & E3 & _ & [(-> & O3 & _)|(_ & Hn)]); [|contradiction].
  exists c3. split.
  - unfold example, from_tcp. rewrite E. cbn [unwrap]. rewrite E1. cbn [unwrap]. rewrite E2. cbn [unwrap]. rewrite E3. cbn [unwrap].
    rewrite padded_eq, firstn_length. do 3 f_equal. f_equal. f_equal. lia.
  - rewrite O3, O1, request_text, <- !app_assoc. reflexivity.
Qed.
Theorem example_honest m sv g j ss s p fs1 fs2 data rest : wf_server sv -> (32 <= length g)%nat -> first_accepted (skipn 32 g) j ->
  used_scalar (draw (skipn 32 g) j) <> 0 ->
  agreed sv (firstn 32 g) (nmul (Z.to_nat (used_scalar (draw (skipn 32 g) j))) Gpt) ss ->
  first_flight ss fs1 -> second_flight ss fs2 -> healthy (writer_new p) -> clean s ->
  Forall (fun f => zlen f <= 16384) data -> zlen fs2 + zlen data + 1 < 2 ^ 64 ->
  ending (k_server (s_keys ss)) (iv_server (s_keys ss)) (zlen fs2 + zlen data) rest ->
  stream s = served ss fs1 fs2 ++ sealed_stream (k_server (s_keys ss)) (iv_server (s_keys ss)) (zlen fs2) ApplicationDataTy data ++ rest ->
  exists c, example m true s p g = (Ok tt, Some (padded (Z.to_nat 4096) (concat data)), c) /\
    w_out (c_writer c) = stage_out (Complete ss) ++
      sealed_record (k_client (s_keys ss)) (iv_client (s_keys ss)) 1 ApplicationDataTy head_request ++
      sealed_record (k_client (s_keys ss)) (iv_client (s_keys ss)) 2 AlertTy [x02; x00].
Proof.
  intros W Lg F Nz A F1 F2 H Cl Ld Lk He S.
  destruct (honest_connects m sv g j ss s p fs1 fs2 _ W Lg F Nz A F1 F2 S H) as (c & E & _ & O & K & KW & Hc & B & Bc & St).
  destruct (example_from m s p g c _ _ (k_server (s_keys ss)) (iv_server (s_keys ss)) (zlen fs2) data rest E Cl KW Hc) as (c' & Ex & Ou); [|exact Bc|exact Lk|exact He|].
  - split; [exact K|]. split; [exact St|]. split; [exact Ld|]. split; [lia|apply no_pending_nil; exact B].
  - exists c'. split; [exact Ex|]. rewrite Ou, O. reflexivity.
Qed.
Lemma example_runs m : exists s g c, example m true s [] g = (Ok tt, Some (padded (Z.to_nat 4096) [x61; x62; x63]), c).
Proof.
  destruct (conforming_run m plain_server (fun ss => sealed_stream (k_server (s_keys ss)) (iv_server (s_keys ss)) 1 ApplicationDataTy [[x61; x62]; [x63]] ++
    sealed_record (k_server (s_keys ss)) (iv_server (s_keys ss)) 3 AlertTy [x01; x00]) plain_wf) as (s & ss & c & C & _ & E & R & Hk & KW & Hc & Rb & B & S).
  destruct (example_from m s [] one_tape c _ _ (k_server (s_keys ss)) (iv_server (s_keys ss)) 1 [[x61; x62]; [x63]] _ E C KW Hc ltac:(split; [exact Hk|]; split; [exact S|]; split; [repeat constructor; discriminate|]; split; [reflexivity|apply no_pending_nil; exact Rb]) B ltac:(reflexivity) (End_close _ _ _ AL_warning)) as (c' & Ex & _).
  eauto.
Qed.
(** nothing is shown when construction or sending fails *)
Theorem example_silent m cl s p g : fst (client_new m s p g) <> Ok tt \/ cl = false ->
  exists c, example m cl s p g = (Panic, None, c) \/ example m cl s p g = (Diverge, None, c).
Proof.
  intros H. unfold example, from_tcp. destruct cl; [|eexists; left; reflexivity].
  destruct H as [H|H]; [|discriminate]. destruct (client_new m s p g) as [[[]|k| |] c]; cbn [fst unwrap] in *; [congruence|eauto..].
Qed.
(** any transport: what is shown is from the server, or zero *)
Theorem example_shows m cl s p g x d c : example m cl s p g = (x, Some d, c) -> exists ss, reached m s g (Complete ss) /\
  forall peer, sealed_by (new_encryptor m (k_server (s_keys ss))) (iv_server (s_keys ss)) peer -> zlen peer < 2 ^ 64 ->
  forged (new_decryptor m (k_server (s_keys ss))) (iv_server (s_keys ss)) peer s \/
  exists D rest, app_bytes (map fst peer) = D ++ rest /\ d = padded (Z.to_nat 4096) D /\ (length D <= Z.to_nat 4096)%nat.
Proof.
  unfold example, from_tcp. destruct cl; [|discriminate].
  destruct (client_new m s p g) as [[[]|k| |] c0] eqn:E0; cbn [unwrap]; try discriminate.
  destruct (client_write m request c0) as [[n|k| |] c1] eqn:E1; cbn [unwrap]; try discriminate.
  destruct (client_read m (Z.to_nat 4096) c1) as [[b|k| |] c2] eqn:E2; cbn [unwrap]; try discriminate.
  intros H. assert (Ed : d = b ++ repeat x00 (Z.to_nat 4096 - length b)) by (destruct (unwrap (client_close m c2)); congruence). clear H.
  pose proof (read_length _ _ _ _ _ E2) as Lb.
  destruct (connection_genuine m s p g c0 E0) as (ss & R & G). exists ss. split; [exact R|]. intros peer P L.
  destruct (G peer [Z.to_nat 4096] P L) as [Fg|(rest & Q)]; [auto|]. right. exists b, rest.
  assert (E2' : client_read m (Z.to_nat 4096) c0 = (Ok b, Client (c_reader c2) (c_writer c0) (c_rng c0) (c_buf c2))).
  { destruct (write_op m request) as (w & Ew). rewrite Ew in E1. unfold on_writer in E1. destruct (w (c_writer c0)) as [y w']. apply pair_equal_spec in E1 as [_ E1]. subst c1.
    pose proof (read_frame _ _ _ _ _ (c_writer c0) (c_rng c0) E2) as X. cbn [c_reader c_buf] in X. destruct c0; exact X. }
  cbn [client_reads] in Q. rewrite E2' in Q. cbn [fst oks concat] in Q. rewrite app_nil_r in Q. split; [exact Q|]. split; [|exact Lb].
  rewrite Ed, padded_eq, firstn_all2 by lia. reflexivity.
Qed.
Lemma connected_dec m s p g c : client_new m s p g = (Ok tt, c) -> exists key, r_dec (c_reader c) = Some (new_decryptor m key).
Proof. intros E. apply connected in E as (ss & _ & _ & _ & _ & _ & _ & D & _). eauto. Qed.
