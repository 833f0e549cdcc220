(** Proofs: which reading calls of the public interface can panic, and on what. *)
From Verif Require Import Spec_Client4 Spec_Blame P_Util P_Codec P_CodecProps P_RecordW P_RecordR P_Record P_Record2 P_Aead P_Halt P_Client P_Client2 P_App P_App2 P_Panic P_Client4 P_Client5 P_Fault P_Pending P_Decode P_Alert P_Open P_Api.
From Coq Require Import ZifyBool ZifyNat ZifyN.
Local Open Scope list_scope.
Local Open Scope Z_scope.
#[local] Opaque SHA256 HMAC aead_seal aead_decrypt aead_encrypt compute_keys PRF nmul.

Section Blame.
Variables (m : mode) (key iv : bytes).
(** keys installed, and numbers for everything still to come *)
Definition inv (r : reader) : Prop := exists k, keyed m r key iv k /\ k + left r + 1 < 2 ^ 64.
Definition moves (r r' : reader) : Prop := later r r' /\ inv r' /\ (no_pending r -> other_in (r_src r) key iv \/ no_pending r').
Lemma overlong_later a b : later a b -> overlong_in (r_src b) key iv -> overlong_in (r_src a) key iv.
Proof. intros L (k & t & p & K & S & H). exists k, t, p. split; [exact K|]. split; [eapply later_sealed; eauto|exact H]. Qed.
Lemma other_later a b : later a b -> other_in (r_src b) key iv -> other_in (r_src a) key iv.
Proof. intros L (k & t & p & K & S & H). exists k, t, p. split; [exact K|]. split; [eapply later_sealed; eauto|exact H]. Qed.
Lemma moves_refl r : inv r -> moves r r.
Proof. intros I. split; [apply later_refl|]. split; [exact I|]. auto. Qed.
Lemma moves_trans a b c : moves a b -> moves b c -> moves a c.
Proof.
  intros (L1 & _ & N1) (L2 & I2 & N2). split; [eapply later_trans; eauto|]. split; [exact I2|]. intros N.
  destruct (N1 N) as [O|N']; [auto|]. destruct (N2 N') as [O|N'']; [left; eapply other_later; eauto|auto].
Qed.
(** what a call that waits for a message does *)
Lemma message_moves r : inv r -> let (x, r') := read_message m r in moves r r' /\
  (x = Panic -> overlong_in (r_src r) key iv) /\
  (no_pending r -> other_in (r_src r) key iv \/ match x with Ok (ApplicationDataMessage _) | Err _ | Panic => True | _ => False end).
Proof.
  intros (k & Kd & Hk). destruct (read_message m r) as [x r'] eqn:E. pose proof Kd as (D & V & C & Lk & Li & K0).
  destruct (read_message_absorbs m r) as (recs & A & _). rewrite E in A. cbn [snd] in A.
  destruct (absorbs_room _ _ _ _ A ltac:(lia) ltac:(lia)) as (La & C1 & C2). destruct (absorbs_dec _ _ _ _ A) as [D1 V1].
  assert (P0 : 0 <= left r) by (unfold left; lia).
  assert (I' : inv r').
  { exists (r_count r'). split; [|lia]. unfold keyed. rewrite D1, V1. repeat (split; [assumption || reflexivity|]). lia. }
  assert (Pn : x = Panic -> overlong_in (r_src r) key iv).
  { intros ->. apply message_panics in E as (recs' & r1 & A' & Q). destruct (keyed_panics _ _ _ _ _ _ _ Kd Hk A' Q) as (k' & t & p & H & S & L).
    exists k', t, p. split; [lia|]. auto. }
  assert (Np : no_pending r -> other_in (r_src r) key iv \/
    (no_pending r' /\ match x with Ok (ApplicationDataMessage _) | Err _ | Panic => True | _ => False end)).
  { intros NP. rewrite read_message_eq, NP in E. assert (Er : set_buf r (r_buf r) = r) by (destruct r; reflexivity). rewrite Er, pull_eq in E. unfold mbind in E.
    destruct (read_record m r) as [y r1] eqn:R.
    apply (keyed_record _ _ _ _ _ _ _ Kd ltac:(lia)) in R as (L & Le & B & [(e & -> & Kd1)|(t & p & SI & L5 & [(Lp & maj & min & -> & Kd1)|(Lp & ->)])]).
    - apply pair_equal_spec in E as [<- <-]. right. split; [unfold no_pending in *; rewrite B; exact NP|exact I].
    - assert (T : t = ApplicationDataTy \/ t <> ApplicationDataTy) by (destruct t; auto; right; discriminate).
      destruct T as [-> | T]; [|left; exists k, t, p; auto].
      right. cbn [handle_record rc_type rc_fragment mret] in E. unfold mret in E. apply pair_equal_spec in E as [<- <-].
      split; [unfold no_pending in *; rewrite B; exact NP|exact I].
    - apply pair_equal_spec in E as [<- <-]. right. split; [unfold no_pending in *; rewrite B; exact NP|exact I]. }
  split; [|split; [exact Pn|]]; [split; [exact La|split; [exact I'|]]|]; intros NP; destruct (Np NP) as [O|[N X]]; auto.
Qed.
Lemma app_moves r : inv r -> let (x, r') := read_application_data m r in moves r r' /\
  (x = Panic -> overlong_in (r_src r) key iv \/ other_in (r_src r) key iv \/ ~ no_pending r).
Proof.
  intros Iv. pose proof (message_moves r Iv) as H. destruct Iv as (k & (D & _) & _). unfold read_application_data. rewrite D. unfold mbind.
  destruct (read_message m r) as [x r']. destruct H as (M & P & N).
  assert (Dec : no_pending r \/ ~ no_pending r).
  { unfold no_pending. pose proof (get_message_value (r_buf r)) as Vb. destruct (get_message (r_buf r)) as [[[h|]| | |] b] eqn:G; cbn in Vb; try contradiction; try (right; discriminate).
    destruct (list_eq_dec Byte.byte_eq_dec b (r_buf r)) as [-> |Nb]; [left; reflexivity|right; congruence]. }
  assert (Bl : (match x with Ok (ApplicationDataMessage _) | Err _ | Panic => True | _ => False end -> overlong_in (r_src r) key iv) ->
    overlong_in (r_src r) key iv \/ other_in (r_src r) key iv \/ ~ no_pending r).
  { intros H. destruct Dec as [Dn|Dn]; [|auto]. destruct (N Dn) as [O|X]; auto. }
  assert (Fin : forall z, (z = Panic -> match x with Ok (ApplicationDataMessage _) | Err _ | Diverge => False | _ => True end) ->
    moves r r' /\ (z = @Panic bytes -> overlong_in (r_src r) key iv \/ other_in (r_src r) key iv \/ ~ no_pending r)).
  { intros z H. split; [exact M|]. intros Q. specialize (H Q). apply Bl. intros X. apply P. destruct x as [[]| | |]; try contradiction; reflexivity. }
  destruct x as [[h| |[lv ds]|d]|e| |]; try destruct ds; apply Fin; intros Q; try discriminate Q; exact I.
Qed.
Lemma rd_moves len done c x c' : rd m len done c x c' -> inv (c_reader c) -> moves (c_reader c) (c_reader c') /\
  (x = Panic -> overlong_in (r_src (c_reader c)) key iv \/ other_in (r_src (c_reader c)) key iv \/ ~ no_pending (c_reader c)).
Proof.
  assert (Step : forall r r' : reader, moves r r' -> overlong_in (r_src r') key iv \/ other_in (r_src r') key iv \/ ~ no_pending r' ->
     overlong_in (r_src r) key iv \/ other_in (r_src r) key iv \/ ~ no_pending r).
  { intros r r' (L & _ & N) [O|[O|O]]; [left; eapply overlong_later; eauto|right; left; eapply other_later; eauto|].
    right. assert (Q : ~ other_in (r_src r) key iv -> ~ no_pending r) by (intros X Y; destruct (N Y); auto).
    pose proof (get_message_value (r_buf r)) as Vb.
    assert (Dec : no_pending r \/ ~ no_pending r).
    { unfold no_pending. destruct (get_message (r_buf r)) as [[[h|]| | |] b] eqn:G; cbn in Vb; try contradiction; try (right; discriminate).
      destruct (list_eq_dec Byte.byte_eq_dec b (r_buf r)) as [-> |Nb]; [left; reflexivity|right; congruence]. }
    destruct Dec as [Y|Y]; [|auto]. destruct (N Y); [auto|contradiction]. }
  induction 1 as [done c L|done c x c' L B R IH|done c d r' x c' L B E R IH|done c e r' L B E|done c r' L B E|done c r' L B E]; intros Iv;
    [split; [apply moves_refl; exact Iv|discriminate]|exact (IH Iv)|..];
    pose proof (app_moves (c_reader c) Iv) as A; rewrite E in A; destruct A as (M & P).
  - cbn [with_buf c_reader] in IH. destruct (IH (proj1 (proj2 M))) as (M2 & P2). split; [eapply moves_trans; eauto|]. intros X. eapply Step; [exact M|auto].
  - split; [exact M|discriminate].
  - split; [exact M|exact P].
  - split; [exact M|discriminate].
Qed.
(** every call *)
Definition blamed (o : api) (r : reader) : Prop :=
  overlong_in (r_src r) key iv \/ (wants_data o = true /\ (other_in (r_src r) key iv \/ ~ no_pending r)).
Lemma call_moves o c x c' : (side_of o = Reading -> rekeys o = false) -> inv (c_reader c) -> do_api m o c = (x, c') -> moves (c_reader c) (c_reader c') /\
  (side_of o = Reading -> x = Panic -> blamed o (c_reader c)).
Proof.
  intros Rk Iv E. unfold blamed. destruct (side_beq (side_of o) Reading) eqn:Sd.
  2: { assert (Sd' : side_of o <> Reading) by (intros X; apply beq_side in X; congruence). pose proof (do_frame _ _ _ _ _ E) as [F _]. specialize (F Reading (not_eq_sym Sd')).
       cbn [part_of] in F. assert (c_reader c' = c_reader c) as -> by congruence. split; [apply moves_refl; exact Iv|intros X; contradiction]. }
  apply beq_side in Sd. specialize (Rk Sd). destruct o as [n| | | | | | | |o| |n|]; cbn [side_of] in Sd; try discriminate Sd; cbn [wants_data].
  - cbn [do_api] in E. rewrite fmap_run in E. destruct (client_read m n c) as [y c1] eqn:R. cbn [fst snd] in E. apply pair_equal_spec in E as [<- <-].
    apply read_rd in R. destruct (rd_moves _ _ _ _ _ R Iv) as (M & P). split; [exact M|]. intros _ X.
    destruct P as [P|P]; [destruct y; try discriminate X; reflexivity|left; exact P|right; split; [reflexivity|exact P]].
  - cbn [do_api] in E. unfold on_reader in E. destruct o as [| | | | |]; cbn [do_rop rekeys] in *; try discriminate Rk; rewrite fmap_run in E.
    + pose proof (message_moves _ Iv) as H. destruct (read_message m (c_reader c)) as [y r1]. destruct H as (M & P & _). cbn [fst snd] in E. apply pair_equal_spec in E as [<- <-].
      split; [exact M|]. intros _ X. left. apply P. destruct y; try discriminate X; reflexivity.
    + pose proof (app_moves _ Iv) as H. destruct (read_application_data m (c_reader c)) as [y r1]. destruct H as (M & P). cbn [fst snd] in E. apply pair_equal_spec in E as [<- <-].
      split; [exact M|]. intros _ X. destruct P as [P|P]; [destruct y; try discriminate X; reflexivity|left; exact P|right; split; [reflexivity|exact P]].
    + pose proof (message_moves _ Iv) as H. unfold read_handshake, mbind in E. destruct (read_message m (c_reader c)) as [y r1]. destruct H as (M & P & _).
      destruct y as [[]|e| |]; cbn [fst snd mret mfail] in E; apply pair_equal_spec in E as [<- <-]; (split; [exact M|]); intros _ X; try discriminate X; left; auto.
    + pose proof (message_moves _ Iv) as H. unfold read_change_cipher_spec, mbind in E. destruct (read_message m (c_reader c)) as [y r1]. destruct H as (M & P & _).
      destruct y as [[]|e| |]; cbn [fst snd mret mfail] in E; apply pair_equal_spec in E as [<- <-]; (split; [exact M|]); intros _ X; try discriminate X; left; auto.
  - cbn [do_api] in E. rewrite fmap_run in E. unfold on_reader, r_read in E. pose proof (fill_all_bytes (r_src (c_reader c)) n) as (p & Ab & _).
    pose proof (fill_total (r_src (c_reader c)) n) as Vf. destruct (fill_exact (r_src (c_reader c)) n) as [y s'] eqn:F. cbn [fst snd] in *. apply pair_equal_spec in E as [<- <-]. cbn [c_reader].
    assert (L : later (c_reader c) (Reader s' (r_dec (c_reader c)) (r_count (c_reader c)) (r_buf (c_reader c)) (r_iv (c_reader c)))) by (exists p; exact Ab).
    split; [|intros _ X; destruct Vf as [(got & ->)| ->]; discriminate X]. split; [exact L|]. split; [|intros N; right; exact N].
    destruct Iv as (k & Kd & Hk). exists k. split; [exact Kd|]. pose proof (later_left _ _ L). lia.
Qed.
Lemma no_pending_dec r : no_pending r \/ ~ no_pending r.
Proof.
  unfold no_pending. pose proof (get_message_value (r_buf r)) as Vb. destruct (get_message (r_buf r)) as [[[h|]| | |] b] eqn:G; cbn in Vb; try contradiction; try (right; discriminate).
  destruct (list_eq_dec Byte.byte_eq_dec b (r_buf r)) as [-> |Nb]; [left; reflexivity|right; congruence].
Qed.
Lemma blamed_moves o r r' : moves r r' -> blamed o r' -> blamed o r.
Proof.
  intros (L & _ & N) [O|(W & [O|O])]; [left; eapply overlong_later; eauto|right; split; [exact W|left; eapply other_later; eauto]|right; split; [exact W|]].
  destruct (no_pending_dec r) as [Y|Y]; [destruct (N Y); [auto|contradiction]|auto].
Qed.
Lemma history_blame : forall l c, inv (c_reader c) -> Forall (fun o => side_of o = Reading -> rekeys o = false) l ->
  forall i o, nth_error l i = Some o -> side_of o = Reading -> nth_error (fst (api_run m l c)) i = Some Panic -> blamed o (c_reader c).
Proof.
  induction l as [|a l IH]; intros c Iv F i o Hi Sd Hp; [destruct i; discriminate Hi|]. inversion F as [|? ? Fa Fl]; subst.
  cbn [api_run] in Hp. destruct (do_api m a c) as [x c1] eqn:E. destruct (call_moves a c x c1 Fa Iv E) as (M & P).
  destruct i as [|i].
  - injection Hi as ->. apply P; [exact Sd|]. destruct x; try (destruct (api_run m l c1) as [xs c2]); cbn [fst nth_error] in Hp; congruence.
  - cbn [nth_error] in Hi. specialize (IH c1 (proj1 (proj2 M)) Fl i o Hi Sd).
    destruct x; try (destruct (api_run m l c1) as [xs c2]; cbn [fst nth_error] in *; eapply blamed_moves; [exact M|exact (IH Hp)]); destruct i; discriminate Hp.
Qed.
End Blame.

Theorem reading_panics m s p g c l : zlen (all_bytes s) + 1 < 2 ^ 64 -> client_new m s p g = (Ok tt, c) ->
  exists ss, reached m s g (Complete ss) /\ let key := k_server (s_keys ss) in let iv := iv_server (s_keys ss) in
  forall i o, Forall (fun o => side_of o = Reading -> rekeys o = false) l ->
    nth_error l i = Some o -> side_of o = Reading -> nth_error (fst (api_run m l c)) i = Some Panic ->
    overlong_in (r_src (c_reader c)) key iv \/
    (wants_data o = true /\ (other_in (r_src (c_reader c)) key iv \/ ~ no_pending (c_reader c))).
Proof.
  intros Room E. apply connected in E as (ss & R & _ & _ & _ & _ & _ & _ & K). exists ss. split; [exact R|]. cbv zeta. intros i o F Hi Sd Hp.
  destruct (K Room) as (k & Kd & Lk). eapply (history_blame m); [|exact F|exact Hi|exact Sd|exact Hp]. exists k. split; [exact Kd|]. rewrite left_all. lia.
Qed.
(** an over-long record makes each of the four methods panic *)
Lemma overlong_panics m r key iv k t f rest o : keyed m r key iv k -> no_pending r -> k + 1 < 2 ^ 64 -> 16384 < zlen f <= 16384 + 2048 - 16 ->
  stream (r_src r) = sealed_record key iv k t f ++ rest -> fetches o = true -> fst (do_rop m o r) = Panic.
Proof.
  intros Kd NP Hk Lf S Ro. pose proof Kd as (D & _).
  assert (Pm : fst (read_message m r) = Panic).
  { rewrite read_message_eq, NP. assert (Er : set_buf r (r_buf r) = r) by (destruct r; reflexivity). rewrite Er, pull_eq. unfold mbind.
    assert (Sf : protects key iv k t x03 x03 f (aead_seal key (rfc_nonce iv k) (rfc_ad k t x03 x03 (zlen f)) f)) by reflexivity.
    assert (Lc : zlen (aead_seal key (rfc_nonce iv k) (rfc_ad k t x03 x03 (zlen f)) f) <= 18432) by (rewrite sealed_len; lia).
    destruct (record_opens m r key iv k t x03 x03 _ rest Kd Hk Lc S) as (r' & _ & _ & [(p & Q & L & _)|[(p & _ & _ & E)|(N & _)]]).
    - pose proof (f_equal zlen Q) as Lq. rewrite !sealed_len in Lq. lia.
    - rewrite E. reflexivity.
    - destruct (N f Sf). }
  destruct (read_message m r) as [x r'] eqn:E. cbn [fst] in Pm. subst x.
  destruct o; cbn [fetches] in Ro; try discriminate Ro; cbn [do_rop]; rewrite fmap_run; unfold read_application_data, read_handshake, read_change_cipher_spec, mbind; rewrite ?D, E; reflexivity.
Qed.
(** the same records make [read_application_data] panic as make [read] panic *)
Lemma crashes_method m r key iv k bs rest : keyed m r key iv k -> r_buf r = [] -> k + 1 < 2 ^ 64 -> crashing key iv k bs ->
  stream (r_src r) = bs ++ rest -> fst (do_rop m R_application r) = Panic.
Proof.
  intros K R Hk Cr S. pose proof (crashes m (Client r (writer_new []) [] []) key iv k bs rest 1 K R eq_refl Hk ltac:(lia) Cr S) as H.
  destruct (client_read m 1 (Client r (writer_new []) [] [])) as [x c'] eqn:E. cbn [fst] in H. subst x. apply read_rd in E. cbn [do_rop]. rewrite fmap_run.
  inversion E as [|? ? ? ? ? B|? ? d r' ? ? L B Ed Q|? ? ? ? ? ? ?|? ? r' L B Ed|]; subst; [cbn in B; congruence| |cbn [c_reader] in Ed; rewrite Ed; reflexivity].
  exfalso. cbn [c_reader] in Ed. clear E Q L B. pose proof (no_pending_nil _ R) as NP. destruct Cr as [(l & ds & Nd & ->)|[->|[(h & W & L & ->)|(t & f & L & ->)]]].
  - destruct (read_app_alert m _ key iv k l ds _ K S Hk NP) as (r1 & E1 & _). destruct ds; first [congruence|rewrite E1 in Ed; discriminate Ed].
  - destruct (read_app_ccs m _ key iv k _ K S Hk NP) as (? & E1). congruence.
  - destruct (read_app_handshake m _ key iv k h _ K W L S Hk R) as (? & E1). congruence.
  - destruct (read_app_long m _ key iv k t f _ K S L ltac:(lia) NP) as (? & E1). congruence.
Qed.
(** connections on which it happens *)
Lemma overlong_connection m t : exists s g ss c f, client_new m s [] g = (Ok tt, c) /\ reached m s g (Complete ss) /\ no_pending (c_reader c) /\
  stream (r_src (c_reader c)) = sealed_record (k_server (s_keys ss)) (iv_server (s_keys ss)) 1 t f /\ zlen f = 16385 /\
  Forall (fun o => fst (api_run m [A_reader o] c) = [Panic]) [R_message; R_application; R_handshake; R_ccs].
Proof.
  destruct (plain_run m (fun ss => sealed_record (k_server (s_keys ss)) (iv_server (s_keys ss)) 1 t long_frag ++ [])) as (s & g & ss & c & E & R & K & Rb & B & S).
  exists s, g, ss, c, long_frag. split; [exact E|]. split; [exact R|]. split; [apply no_pending_nil; exact Rb|].
  split; [rewrite S; apply app_nil_r|]. split; [exact long_frag_length|].
  assert (L : zlen long_frag = 16385) by exact long_frag_length.
  assert (H : forall o, fetches o = true -> fst (api_run m [A_reader o] c) = [Panic]).
  { intros o Ro. pose proof (overlong_panics m (c_reader c) _ _ 1 t long_frag [] o K (no_pending_nil _ Rb) ltac:(lia) ltac:(lia) S Ro) as P.
    cbn [api_run do_api]. unfold on_reader. destruct (do_rop m o (c_reader c)) as [x r']. cbn [fst] in P. subst x. reflexivity. }
  repeat constructor; apply H; reflexivity.
Qed.
Lemma alert_connection m : exists s g c, client_new m s [] g = (Ok tt, c) /\ no_pending (c_reader c) /\
  fst (api_run m [A_reader R_application] c) = [Panic] /\
  fst (api_run m [A_reader R_message] c) = [Ok (V_message (AlertMessage (Alert AL_fatal AD_internal_error)))] /\
  fst (api_run m [A_reader R_handshake] c) = [Err AlertReceived] /\ fst (api_run m [A_reader R_ccs] c) = [Err UnexpectedMessage].
Proof.
  destruct (plain_run m (fun ss => sealed_record (k_server (s_keys ss)) (iv_server (s_keys ss)) 1 AlertTy [x02; x50] ++ [])) as (s & g & ss & c & E & R & K & Rb & B & S).
  exists s, g, c. split; [exact E|]. split; [apply no_pending_nil; exact Rb|].
  assert (M : fst (read_message m (c_reader c)) = Ok (AlertMessage (Alert AL_fatal AD_internal_error))).
  { rewrite read_message_eq, (no_pending_nil _ Rb). assert (Er : set_buf (c_reader c) (r_buf (c_reader c)) = c_reader c) by (destruct (c_reader c); reflexivity). rewrite Er, pull_eq. unfold mbind.
    assert (Lc : zlen (aead_seal (k_server (s_keys ss)) (rfc_nonce (iv_server (s_keys ss)) 1) (rfc_ad 1 AlertTy x03 x03 (zlen [x02; x50])) [x02; x50]) <= 18432) by (rewrite sealed_len; cbn; lia).
    destruct (record_opens m (c_reader c) _ _ 1 AlertTy x03 x03 _ [] K ltac:(lia) Lc S) as (r' & _ & _ & [(p & Q & L & Er' & K')|[(p & Q & L & _)|(N & _)]]).
    - assert (p = [x02; x50]) as ->.
      { pose proof (f_equal zlen Q) as Lq. rewrite !sealed_len in Lq. unfold protects in Q.
        destruct K as (_ & _ & _ & Lk & Li & _). assert (Lp : zlen p = zlen [x02; x50]) by lia. rewrite Lp in Q.
        assert (Hn : length (rfc_nonce (iv_server (s_keys ss)) 1) = 12%nat) by (apply rfc_nonce_length; [exact Li|lia]).
        set (ct := aead_seal _ _ _ [x02; x50]) in *. assert (Fi : fits ct) by (apply fits_record; unfold ct; rewrite sealed_len; cbn; lia).
        apply (open_iff_seal m _ _ _ ct p Lk Hn Fi) in Q.
        assert (Q2 : ct = aead_seal (k_server (s_keys ss)) (rfc_nonce (iv_server (s_keys ss)) 1) (rfc_ad 1 AlertTy x03 x03 (zlen [x02; x50])) [x02; x50]) by reflexivity.
        apply (open_iff_seal m _ _ _ ct [x02; x50] Lk Hn Fi) in Q2. congruence. }
      rewrite Er'. reflexivity.
    - pose proof (f_equal zlen Q) as Lq. rewrite !sealed_len in Lq. change (zlen [x02; x50]) with 2 in Lq. lia.
    - destruct (N [x02; x50]). reflexivity. }
  cbn [api_run do_api]. unfold on_reader. cbn [do_rop]. rewrite !fmap_run. unfold read_application_data, read_handshake, read_change_cipher_spec, mbind.
  destruct K as (D & _). rewrite D. destruct (read_message m (c_reader c)) as [x r']. cbn [fst] in M. subst x. repeat split; reflexivity.
Qed.
