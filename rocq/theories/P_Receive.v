(** C90: what reading gives, for every stream of bytes. *)
From Verif Require Import Spec_Receive P_Util P_Codec P_CodecProps P_RecordW P_RecordR P_Record P_Record2 P_Aead P_Ecdhe P_Halt P_Client P_Client2 P_App P_App2 P_Panic P_Client3 P_Client4 P_Client5 P_Pending P_Open P_Eof P_Accept.
From Coq Require Import ZifyBool ZifyNat ZifyN.
Local Open Scope list_scope.
Local Open Scope Z_scope.
#[local] Opaque SHA256 HMAC aead_seal aead_decrypt aead_encrypt compute_keys PRF nmul.

(** ** One record *)
Lemma r_read_end r n : clean (r_src r) -> (length (stream (r_src r)) < n)%nat -> r_read n r = (Err IoFailure, set_src r []).
Proof.
  intros C L. unfold r_read. pose proof (fill_err _ _ L) as E. pose proof (fill_err_clean _ _ C L) as S. destruct (fill_exact (r_src r) n) as [y s]. cbn [fst snd] in *. subst. reflexivity.
Qed.
Lemma be_val_one b : be_val [b] = b2z b. Proof. unfold be_val. cbn. lia. Qed.
Lemma ct_here t : from_code content_type_code content_type_all (be_val [z2b (rfc_content_type t)]) = Some t.
Proof. rewrite be_val_one, b2z_z2b, Z.mod_small by apply ct_range. exact (from_ct_code t). Qed.
Lemma record_type m r b rest : clean (r_src r) -> stream (r_src r) = b :: rest -> (forall t, b <> z2b (rfc_content_type t)) ->
  exists s', stream s' = rest /\ clean s' /\ read_record m r = (Err UnexpectedMessage, set_src r s').
Proof.
  intros C S N. destruct (r_read_next r [b] rest 1 S eq_refl) as (s1 & F1 & G1 & C1). exists s1. split; [exact G1|]. split; [exact (C1 C)|].
  unfold read_record, mbind at 1. rewrite F1. destruct (from_code content_type_code content_type_all (be_val [b])) as [t|] eqn:E; [|reflexivity].
  exfalso. apply (N t). apply (from_ct_inv (be_val [b])) in E. rewrite be_val_one in E. rewrite <- E, z2b_b2z. reflexivity.
Qed.
Lemma record_head m r t rest : clean (r_src r) -> stream (r_src r) = z2b (rfc_content_type t) :: rest ->
  exists s', stream s' = rest /\ clean s' /\ read_record m r =
    (do* maj := r_read 1 in do* min := r_read 1 in do* len := r_read 2 in
      if ENC_RECORD_MAX_LEN <? be_val len then mfail (Err RecordOverflow) else
      do* fragment := r_read (Z.to_nat (be_val len)) in
      do* rec := (fun r => (unprotect t (hd x00 maj) (hd x00 min) fragment r, r)) in
      do* _ := r_bump m in mret rec) (set_src r s').
Proof.
  intros C S. destruct (r_read_next r [z2b (rfc_content_type t)] rest 1 S eq_refl) as (s1 & F1 & G1 & C1). exists s1. split; [exact G1|]. split; [exact (C1 C)|].
  unfold read_record, mbind at 1. rewrite F1, ct_here. reflexivity.
Qed.
Lemma record_long m r t maj min n rest : clean (r_src r) -> stream (r_src r) = z2b (rfc_content_type t) :: maj :: min :: be 2 n ++ rest -> 18432 < n < 65536 ->
  exists s', stream s' = rest /\ clean s' /\ read_record m r = (Err RecordOverflow, set_src r s').
Proof.
  intros C S Hn. destruct (record_head m r t _ C S) as (s1 & S1 & C1 & ->).
  destruct (r_read_next (set_src r s1) [maj] (min :: be 2 n ++ rest) 1 S1 eq_refl) as (s2 & F2 & G2 & C2).
  destruct (r_read_next (set_src r s2) [min] (be 2 n ++ rest) 1 G2 eq_refl) as (s3 & F3 & G3 & C3).
  destruct (r_read_next (set_src r s3) (be 2 n) rest 2 G3 ltac:(rewrite be_length; reflexivity)) as (s4 & F4 & G4 & C4).
  exists s4. split; [exact G4|]. split; [exact (C4 (C3 (C2 C1)))|].
  unfold mbind at 1. rewrite F2. unfold mbind at 1. change (set_src (set_src r s1) s2) with (set_src r s2). rewrite F3.
  unfold mbind at 1. change (set_src (set_src r s2) s3) with (set_src r s3). rewrite F4.
  assert (Hv : be_val (be 2 n) = n) by (rewrite be_val_be; apply Z.mod_small; change (256 ^ Z.of_nat 2) with 65536; lia).
  rewrite Hv. replace (ENC_RECORD_MAX_LEN <? n) with true by (symmetry; apply Z.ltb_lt; unfold ENC_RECORD_MAX_LEN; lia). reflexivity.
Qed.
Lemma record_cut m r : clean (r_src r) -> cut_record (stream (r_src r)) -> read_record m r = (Err IoFailure, set_src r []).
Proof.
  intros C [S|(t & l & S & H)].
  - unfold read_record, mbind at 1. rewrite r_read_end; [reflexivity|exact C|rewrite S; cbn; lia].
  - destruct (record_head m r t _ C S) as (s1 & S1 & C1 & ->).
    destruct l as [|maj l]; [unfold mbind at 1; rewrite r_read_end; [reflexivity|exact C1|cbn [set_src r_src]; rewrite S1; cbn; lia]|].
    destruct (r_read_next (set_src r s1) [maj] l 1 S1 eq_refl) as (s2 & F2 & G2 & C2). specialize (C2 C1).
    unfold mbind at 1. rewrite F2. change (set_src (set_src r s1) s2) with (set_src r s2).
    destruct l as [|min l]; [unfold mbind at 1; rewrite r_read_end; [reflexivity|exact C2|cbn [set_src r_src]; rewrite G2; cbn; lia]|].
    destruct (r_read_next (set_src r s2) [min] l 1 G2 eq_refl) as (s3 & F3 & G3 & C3). specialize (C3 C2).
    unfold mbind at 1. rewrite F3. change (set_src (set_src r s2) s3) with (set_src r s3).
    destruct H as [H|(maj' & min' & n & f & E & Hf)].
    { rewrite !zlen_cons in H. unfold mbind at 1. rewrite r_read_end; [reflexivity|exact C3|cbn [set_src r_src]; rewrite G3; unfold zlen in H; lia]. }
    injection E as -> -> ->. pose proof (zlen_nonneg f).
    destruct (r_read_next (set_src r s3) (be 2 n) f 2 G3 ltac:(rewrite be_length; reflexivity)) as (s4 & F4 & G4 & C4). specialize (C4 C3).
    unfold mbind at 1. rewrite F4. change (set_src (set_src r s3) s4) with (set_src r s4).
    assert (Hv : be_val (be 2 n) = n) by (rewrite be_val_be; apply Z.mod_small; change (256 ^ Z.of_nat 2) with 65536; lia).
    rewrite Hv. replace (ENC_RECORD_MAX_LEN <? n) with false by (symmetry; apply Z.ltb_ge; unfold ENC_RECORD_MAX_LEN; lia).
    unfold mbind at 1. rewrite r_read_end; [reflexivity|exact C4|cbn [set_src r_src]; rewrite G4; unfold zlen in Hf; lia].
Qed.
(** every stream begins in one of these ways *)
Lemma beginnings bs : cut_record bs \/ (exists b rest, bs = b :: rest /\ forall t, b <> z2b (rfc_content_type t)) \/
  (exists t maj min n rest, bs = z2b (rfc_content_type t) :: maj :: min :: be 2 n ++ rest /\ 18432 < n < 65536) \/
  (exists t maj min f rest, bs = wire t maj min f ++ rest /\ zlen f <= 18432).
Proof.
  destruct bs as [|b l]; [left; left; reflexivity|].
  destruct (from_ct (b2z b)) as [t|] eqn:E.
  2:{ right. left. exists b, l. split; [reflexivity|]. intros t ->. rewrite b2z_z2b, Z.mod_small, from_ct_code in E by apply ct_range. discriminate E. }
  apply from_ct_inv in E. assert (b = z2b (rfc_content_type t)) as -> by (rewrite <- E, z2b_b2z; reflexivity). clear E.
  destruct (Z.ltb_spec (zlen l) 4) as [H|H]; [left; right; exists t, l; auto|].
  destruct l as [|maj [|min [|hi [|lo l]]]]; try (cbn in H; lia).
  pose proof (be_be_val [hi; lo]) as E. cbn [length] in E. set (n := be_val [hi; lo]) in *.
  assert (Hn : 0 <= n < 65536) by (unfold n, be_val; cbn [be_val_acc]; pose proof (b2z_range hi); pose proof (b2z_range lo); lia).
  change (maj :: min :: hi :: lo :: l) with (maj :: min :: [hi; lo] ++ l). rewrite <- E.
  destruct (Z.ltb_spec 18432 n) as [G|G]; [right; right; left; exists t, maj, min, n, l; split; [reflexivity|lia]|].
  destruct (Z.ltb_spec (zlen l) n) as [G2|G2].
  - left. right. exists t, (maj :: min :: be 2 n ++ l). split; [reflexivity|]. right. exists maj, min, n, l. auto.
  - right. right. right. exists t, maj, min, (firstn (Z.to_nat n) l), (skipn (Z.to_nat n) l).
    assert (L : zlen (firstn (Z.to_nat n) l) = n) by (unfold zlen in *; rewrite firstn_length; lia). split; [|lia].
    unfold wire. rewrite L. cbn [app]. rewrite <- app_assoc, firstn_skipn. reflexivity.
Qed.
(** a whole record under the keys *)
Lemma record_whole m r key iv k t maj min f rest : clean (r_src r) -> keyed m r key iv k -> k + 1 < 2 ^ 64 -> zlen f <= 18432 -> stream (r_src r) = wire t maj min f ++ rest ->
  exists r', stream (r_src r') = rest /\ clean (r_src r') /\ r_buf r' = r_buf r /\
  ((exists p, protects key iv k t maj min p f /\ zlen p <= 16384 /\ read_record m r = (Ok (Rec t maj min p), r') /\ keyed m r' key iv (k + 1)) \/
   (exists p, protects key iv k t maj min p f /\ 16384 < zlen p /\ read_record m r = (Panic, r') /\ keyed m r' key iv k) \/
   ((forall p, ~ protects key iv k t maj min p f) /\ read_record m r = (Err BadRecordMac, r') /\ keyed m r' key iv k)).
Proof.
  intros C Kd Hk L S. pose proof Kd as (D & V & Cn & Lk & Li & K0). destruct (read_record_wire m r t maj min f rest S) as (s' & S' & Cl & E); [unfold ENC_RECORD_MAX_LEN; lia|]. specialize (Cl C).
  assert (X : forall x r', read_record m r = (x, r') -> r_src r' = s' /\ (x = Panic -> r' = set_src r s')).
  { intros x r' E'. rewrite E in E'. unfold finish, mbind in E'. destruct (unprotect t maj min f (set_src r s')) as [rec| | |]; try (apply pair_equal_spec in E' as [<- <-]; split; [reflexivity|intros; (discriminate || reflexivity)]).
    unfold r_bump in E'. cbn [set_src r_count] in E'. rewrite Cn, ck_ok in E' by lia. apply pair_equal_spec in E' as [<- <-]. split; [reflexivity|discriminate]. }
  destruct (record_opens m r key iv k t maj min f rest Kd Hk L S) as (r' & Sr & Br & [(p & P1 & P2 & P3 & P4)|[(p & P1 & P2 & P3)|(N & P3 & P4)]]);
    destruct (X _ _ P3) as [Xs Xp]; exists r'; split; [exact Sr|split; [rewrite Xs; exact Cl|split; [exact Br|]]|exact Sr|split; [rewrite Xs; exact Cl|split; [exact Br|]]|exact Sr|split; [rewrite Xs; exact Cl|split; [exact Br|]]].
  - left. exists p. auto.
  - right. left. exists p. split; [exact P1|]. split; [exact P2|]. split; [exact P3|]. rewrite (Xp eq_refl). unfold keyed. cbn [set_src r_dec r_iv r_count]. auto 10.
  - right. right. auto.
Qed.
Lemma protects_once m r key iv k t maj min p p' f : keyed m r key iv k -> k < 2 ^ 64 -> zlen f <= 18432 -> protects key iv k t maj min p f -> protects key iv k t maj min p' f -> p = p'.
Proof.
  intros (D & V & Cn & Lk & Li & K0) Hk L P P'.
  assert (Lp : zlen p = zlen p').
  { pose proof (sealed_len key (rfc_nonce iv k) (rfc_ad k t maj min (zlen p)) p) as X. pose proof (sealed_len key (rfc_nonce iv k) (rfc_ad k t maj min (zlen p')) p') as X'.
    unfold protects in P, P'. rewrite <- P in X. rewrite <- P' in X'. lia. }
  unfold protects in P, P'. rewrite <- Lp in P'. assert (Hn : length (rfc_nonce iv k) = 12%nat) by (apply rfc_nonce_length; [exact Li|lia]).
  assert (Fi : fits f) by (apply fits_record; lia).
  apply (open_iff_seal m _ _ _ f p Lk Hn Fi) in P. apply (open_iff_seal m _ _ _ f p' Lk Hn Fi) in P'. rewrite P in P'. apply Ok_inj in P'. exact P'.
Qed.

(** ** One call of [read_application_data] *)
Definition handed (y : res message * reader) : res bytes * reader :=
  match y with
  | (Ok (ApplicationDataMessage d), r) => (Ok d, r)
  | (Ok (AlertMessage (Alert _ AD_close_notify)), r) => (Ok [], r)
  | (Ok _, r) => (Panic, r)
  | (Err e, r) => (Err e, r)
  | (Panic, r) => (Panic, r)
  | (Diverge, r) => (Diverge, r)
  end.
Lemma app_handed m r key iv k : keyed m r key iv k -> read_application_data m r = handed (read_message m r).
Proof.
  intros (D & _). unfold read_application_data. rewrite D. unfold mbind. destruct (read_message m r) as [[[h| |[l []]|d]| | |] r1]; reflexivity.
Qed.
Lemma message_record m r : none (r_buf r) -> read_message m r =
  (do* rec := read_record m in do* o := handle_record rec in match o with Some msg => mret msg | None => pull m end) r.
Proof. intros N. rewrite read_message_eq, N, set_buf_id, pull_eq. reflexivity. Qed.
Lemma level_here l : from_code alert_level_code alert_level_all (b2z (z2b (rfc_alert_level l))) = Some l. Proof. destruct l; reflexivity. Qed.
Lemma desc_here d : from_code alert_desc_code alert_desc_all (b2z (z2b (rfc_alert_desc d))) = Some d. Proof. destruct d; reflexivity. Qed.
Lemma level_inv b l : from_code alert_level_code alert_level_all (b2z b) = Some l -> b = z2b (rfc_alert_level l).
Proof. unfold from_code. intros H. apply find_some in H as [_ H]. apply Z.eqb_eq in H. rewrite <- (z2b_b2z b), <- H. destruct l; reflexivity. Qed.
Lemma desc_inv b d : from_code alert_desc_code alert_desc_all (b2z b) = Some d -> b = z2b (rfc_alert_desc d).
Proof. unfold from_code. intros H. apply find_some in H as [_ H]. apply Z.eqb_eq in H. rewrite <- (z2b_b2z b), <- H. destruct d; reflexivity. Qed.
Lemma means_handled t maj min p x r : means t p x -> exists y, handle_record (Rec t maj min p) r = (y, r) /\
  handed (match y with Ok (Some msg) => Ok msg | Err e => Err e | Panic => Panic | _ => Diverge end, r) = (x, r).
Proof.
  intros M. unfold handle_record. destruct M; cbn [rc_type rc_fragment].
  - eexists. split; reflexivity.
  - rewrite level_here. change (from_code alert_desc_code alert_desc_all (b2z x00)) with (Some AD_close_notify). eexists. split; reflexivity.
  - rewrite level_here, desc_here. eexists. split; [reflexivity|]. destruct d; try reflexivity. contradiction.
  - destruct p as [|a [|b q]]; try (eexists; split; reflexivity).
    destruct (from_code alert_level_code alert_level_all (b2z a)) as [l|] eqn:El; [|eexists; split; reflexivity].
    destruct (from_code alert_desc_code alert_desc_all (b2z b)) as [d|] eqn:Ed; [|eexists; split; reflexivity].
    exfalso. apply level_inv in El. apply desc_inv in Ed. subst. apply (H l d q). reflexivity.
  - eexists. split; reflexivity.
  - destruct p as [|a [|b q]]; try (eexists; split; reflexivity). destruct (Z.eqb_spec (b2z a) 1) as [E|E]; [|eexists; split; reflexivity].
    exfalso. apply H. f_equal. apply b2z_inj. exact E.
Qed.
Lemma means_total t p : t <> HandshakeTy -> exists x, means t p x.
Proof.
  intros N. destruct t; [| |contradiction|exists (Ok p); constructor].
  - destruct (list_eq_dec Byte.byte_eq_dec p [x01]) as [->|H]; eexists; [apply M_ccs|apply M_no_ccs; exact H].
  - assert (X : (exists l d q, p = z2b (rfc_alert_level l) :: z2b (rfc_alert_desc d) :: q) \/ (forall l d q, p <> z2b (rfc_alert_level l) :: z2b (rfc_alert_desc d) :: q)).
    { destruct p as [|a [|b q]]; [right; discriminate|right; discriminate|].
      destruct (from_code alert_level_code alert_level_all (b2z a)) as [l|] eqn:El.
      2:{ right. intros l d q' E. injection E as -> _ _. rewrite level_here in El. discriminate El. }
      destruct (from_code alert_desc_code alert_desc_all (b2z b)) as [d|] eqn:Ed.
      2:{ right. intros l' d q' E. injection E as _ -> _. rewrite desc_here in Ed. discriminate Ed. }
      left. apply level_inv in El. apply desc_inv in Ed. subst. eauto. }
    destruct X as [(l & d & q & ->)|X]; [|eexists; apply M_no_alert; exact X].
    assert (Dd : d = AD_close_notify \/ d <> AD_close_notify) by (destruct d; (left; reflexivity) || (right; discriminate)).
    destruct Dd as [->|Dd]; eexists; [apply (M_close l q)|apply M_alert; exact Dd].
Qed.
Lemma unwelcome_total b : exists x, unwelcome b x.
Proof.
  destruct (hs_read b) as [[h rest]|e| |] eqn:E.
  - apply hs_read_split in E as E'. destruct E' as (_ & _ & _ & _ & _ & _ & _ & ->). exists Panic. left. eauto.
  - exists (Err e). right. eauto.
  - pose proof (hs_read_value b) as V. rewrite E in V. destruct V.
  - pose proof (hs_read_value b) as V. rewrite E in V. destruct V.
Qed.
Lemma long_wire t maj min f bs : zlen (wire t maj min f ++ bs) = 5 + zlen f + zlen bs.
Proof. rewrite zlen_app, zlen_wire. reflexivity. Qed.
Lemma protects_len key iv k t maj min p f : protects key iv k t maj min p f -> zlen f = zlen p + 16.
Proof. unfold protects. intros ->. apply sealed_len. Qed.
Lemma receive_sound m key iv k pend bs x k' pend' bs' : receive key iv k pend bs x k' pend' bs' -> forall r, poised m r key iv k pend bs -> k + zlen bs < 2 ^ 64 ->
  exists r', read_application_data m r = (x, r') /\ poised m r' key iv k' pend' bs' /\ k' + zlen bs' <= k + zlen bs.
Proof.
  intros R. induction R as [k ty body q bs x L U|k pend bs N Cu|k pend b bs N T|k pend t maj min n bs N T|k pend t maj min f bs N L P|k pend t maj min p f bs N L P T|
    k pend t maj min p f bs x N P L M|k pend maj min f bs N P|k pend maj min p f bs x k' pend' bs' N P L R IH]; intros r (Kd & C & B & S) Room;
    rewrite (app_handed _ _ _ _ _ Kd); try (apply none_iff in N; rewrite <- B in N); pose proof Kd as (_ & _ & _ & _ & _ & K0).
  - exists (set_buf r q). split; [|split; [split; [exact Kd|split; [exact C|split; [reflexivity|exact S]]]|lia]].
    rewrite read_message_eq, B, frame_cons, get_message_framed by (pose proof (zlen_nonneg body); lia || reflexivity). rewrite <- frame_cons.
    destruct U as [(-> & h & ->)|(e & -> & ->)]; reflexivity.
  - exists (set_src r []). rewrite message_record by exact N. unfold mbind at 1. rewrite record_cut; [|exact C|rewrite S; exact Cu].
    split; [reflexivity|]. split; [split; [exact Kd|split; [constructor|split; [exact B|reflexivity]]]|]. pose proof (zlen_nonneg bs). change (zlen []) with 0. lia.
  - destruct (record_type m r b bs C S T) as (s1 & S1 & C1 & E). exists (set_src r s1). rewrite message_record by exact N. unfold mbind at 1. rewrite E.
    split; [reflexivity|]. split; [split; [exact Kd|split; [exact C1|split; [exact B|exact S1]]]|]. rewrite zlen_cons. lia.
  - destruct (record_long m r t maj min n bs C S T) as (s1 & S1 & C1 & E). exists (set_src r s1). rewrite message_record by exact N. unfold mbind at 1. rewrite E.
    split; [reflexivity|]. split; [split; [exact Kd|split; [exact C1|split; [exact B|exact S1]]]|]. rewrite !zlen_cons, zlen_app. pose proof (zlen_nonneg (be 2 n)). lia.
  - rewrite long_wire in *. pose proof (zlen_nonneg f). pose proof (zlen_nonneg bs).
    destruct (record_whole m r key iv k t maj min f bs C Kd ltac:(lia) L S) as (r1 & S1 & C1 & B1 & [(p & Q & _)|[(p & Q & _)|(_ & E & Kd1)]]); [destruct (P _ Q)|destruct (P _ Q)|].
    exists r1. rewrite message_record by exact N. unfold mbind at 1. rewrite E. split; [reflexivity|].
    split; [split; [exact Kd1|split; [exact C1|split; [rewrite B1; exact B|exact S1]]]|lia].
  - rewrite long_wire in *. pose proof (zlen_nonneg f). pose proof (zlen_nonneg bs).
    destruct (record_whole m r key iv k t maj min f bs C Kd ltac:(lia) L S) as (r1 & S1 & C1 & B1 & [(p' & Q & Lp & _)|[(p' & Q & _ & E & Kd1)|(Nn & _)]]);
      [rewrite (protects_once _ _ _ _ _ _ _ _ _ _ _ Kd ltac:(lia) L Q P) in Lp; lia| |destruct (Nn _ P)].
    exists r1. rewrite message_record by exact N. unfold mbind at 1. rewrite E. split; [reflexivity|].
    split; [split; [exact Kd1|split; [exact C1|split; [rewrite B1; exact B|exact S1]]]|lia].
  - rewrite long_wire in *. pose proof (zlen_nonneg f). pose proof (zlen_nonneg bs). pose proof (protects_len _ _ _ _ _ _ _ _ P). assert (Lx : zlen f <= 18432) by lia.
    destruct (record_whole m r key iv k t maj min f bs C Kd ltac:(lia) Lx S) as (r1 & S1 & C1 & B1 & [(p' & Q & _ & E & Kd1)|[(p' & Q & Lp & _)|(Nn & _)]]);
      [|rewrite (protects_once _ _ _ _ _ _ _ _ _ _ _ Kd ltac:(lia) Lx Q P) in Lp; lia|destruct (Nn _ P)].
    rewrite (protects_once _ _ _ _ _ _ _ _ _ _ _ Kd ltac:(lia) Lx Q P) in E.
    exists r1. rewrite message_record by exact N. unfold mbind at 1. rewrite E. destruct (means_handled t maj min p x r1 M) as (y & Hy & Hx).
    unfold mbind at 1. rewrite Hy. split; [|split; [split; [exact Kd1|split; [exact C1|split; [rewrite B1; exact B|exact S1]]]|lia]].
    destruct y as [[msg|]| | |]; cbn [handed] in Hx |- *; try exact Hx. apply pair_equal_spec in Hx as [<- _]. inversion M.
  - rewrite long_wire in *. pose proof (zlen_nonneg f). pose proof (zlen_nonneg bs). pose proof (protects_len _ _ _ _ _ _ _ _ P) as Lf. change (zlen []) with 0 in Lf. assert (Lx : zlen f <= 18432) by lia.
    destruct (record_whole m r key iv k HandshakeTy maj min f bs C Kd ltac:(lia) Lx S) as (r1 & S1 & C1 & B1 & [(p' & Q & _ & E & Kd1)|[(p' & Q & Lp & _)|(Nn & _)]]);
      [|rewrite (protects_once _ _ _ _ _ _ _ _ _ _ _ Kd ltac:(lia) Lx Q P) in Lp; change (zlen []) with 0 in Lp; lia|destruct (Nn _ P)].
    rewrite (protects_once _ _ _ _ _ _ _ _ _ _ _ Kd ltac:(lia) Lx Q P) in E.
    exists r1. rewrite message_record by exact N. unfold mbind at 1. rewrite E. split; [reflexivity|].
    split; [split; [exact Kd1|split; [exact C1|split; [rewrite B1; exact B|exact S1]]]|lia].
  - rewrite long_wire in *. pose proof (zlen_nonneg f). pose proof (zlen_nonneg bs). pose proof (protects_len _ _ _ _ _ _ _ _ P) as Lf. pose proof L as [L1 L2]. assert (Lx : zlen f <= 18432) by lia.
    destruct (record_whole m r key iv k HandshakeTy maj min f bs C Kd ltac:(lia) Lx S) as (r1 & S1 & C1 & B1 & [(p' & Q & _ & E & Kd1)|[(p' & Q & Lp & _)|(Nn & _)]]);
      [|rewrite (protects_once _ _ _ _ _ _ _ _ _ _ _ Kd ltac:(lia) Lx Q P) in Lp; lia|destruct (Nn _ P)].
    rewrite (protects_once _ _ _ _ _ _ _ _ _ _ _ Kd ltac:(lia) Lx Q P) in E.
    rewrite (message_absorbs _ _ _ _ _ _ N (legal_ne _ L) E).
    destruct (IH (set_buf r1 (r_buf r ++ p))) as (r' & A & H' & Rm).
    { split; [exact Kd1|]. split; [exact C1|]. split; [cbn [set_buf r_buf]; rewrite B; reflexivity|exact S1]. } { lia. }
    exists r'. rewrite <- (app_handed m (set_buf r1 (r_buf r ++ p)) key iv (k + 1) Kd1). split; [exact A|]. split; [exact H'|lia].
Qed.
Lemma protected_or_not key iv k t maj min f : length key = 32%nat -> length iv = 12%nat -> 0 <= k -> k + 1 < 2 ^ 64 -> zlen f <= 18432 ->
  (exists p, protects key iv k t maj min p f) \/ (forall p, ~ protects key iv k t maj min p f).
Proof.
  intros Lk Li K0 K1 L. pose (r := Reader [RData (wire t maj min f)] (Some (new_decryptor Release key)) k [] (Some iv)).
  destruct (record_whole Release r key iv k t maj min f []) as (r' & _ & _ & _ & [(p & P & _)|[(p & P & _)|(N & _)]]); try eauto.
  - constructor; [|constructor]. unfold wire. cbn [app]. eauto.
  - repeat split; assumption.
Qed.
Lemma receive_shorter key iv k pend bs x k' pend' bs' : receive key iv k pend bs x k' pend' bs' ->
  k <= k' /\ k' + zlen bs' <= k + zlen bs /\ (forall d, x = Ok d -> (length bs' < length bs)%nat).
Proof.
  induction 1 as [k ty body q bs x L U|k pend bs N Cu|k pend b bs N T|k pend t maj min n bs N T|k pend t maj min f bs N L P|k pend t maj min p f bs N L P T|
    k pend t maj min p f bs x N P L M|k pend maj min f bs N P|k pend maj min p f bs x k' pend' bs' N P L R (IH1 & IH2 & IH3)].
  - split; [lia|]. split; [lia|]. intros d ->. destruct U as [(U & _)|(e & U & _)]; discriminate U.
  - split; [lia|]. split; [pose proof (zlen_nonneg bs); change (zlen []) with 0; lia|discriminate].
  - split; [lia|]. split; [rewrite zlen_cons; lia|discriminate].
  - split; [lia|]. split; [rewrite !zlen_cons, zlen_app; pose proof (zlen_nonneg (be 2 n)); lia|discriminate].
  - split; [lia|]. split; [rewrite long_wire; pose proof (zlen_nonneg f); lia|discriminate].
  - split; [lia|]. split; [rewrite long_wire; pose proof (zlen_nonneg f); lia|discriminate].
  - pose proof (long_wire t maj min f bs) as W. pose proof (zlen_nonneg f). split; [lia|]. split; [lia|]. intros d _. unfold zlen in *. lia.
  - pose proof (long_wire HandshakeTy maj min f bs) as W. pose proof (zlen_nonneg f). split; [lia|]. split; [lia|]. discriminate.
  - pose proof (long_wire HandshakeTy maj min f bs) as W. pose proof (zlen_nonneg f). split; [lia|]. split; [lia|]. intros d E. specialize (IH3 d E). unfold zlen in *. lia.
Qed.
Lemma receive_total key iv : length key = 32%nat -> length iv = 12%nat -> forall n k pend bs, (length bs < n)%nat -> 0 <= k -> k + zlen bs < 2 ^ 64 ->
  exists x k' pend' bs', receive key iv k pend bs x k' pend' bs'.
Proof.
  intros Lk Li n. induction n as [|n IH]; intros k pend bs Ln K0 Room; [lia|].
  destruct (buffer_split pend) as [(ty & body & p & q & L & F & Q & ->)|(ty & body & q & L & ->)].
  2:{ destruct (unwelcome_total (frame ty body)) as [x U]. exists x, k, q, bs. apply V_message; assumption. }
  assert (N : incomplete p) by (exists ty, body, q; auto). clear ty body q L F Q.
  destruct (beginnings bs) as [Cu|[(b & rest & -> & T)|[(t & maj & min & j & rest & -> & J)|(t & maj & min & f & rest & -> & L)]]].
  - exists (Err IoFailure), k, p, []. apply V_end; assumption.
  - exists (Err UnexpectedMessage), k, p, rest. apply V_type; assumption.
  - exists (Err RecordOverflow), k, p, rest. apply V_long; assumption.
  - rewrite long_wire in Room. pose proof (zlen_nonneg f). pose proof (zlen_nonneg rest).
    destruct (protected_or_not key iv k t maj min f Lk Li K0 ltac:(lia) L) as [(pl & P)|P].
    2:{ exists (Err BadRecordMac), k, p, rest. apply V_forged; assumption. }
    destruct (Z.ltb_spec 16384 (zlen pl)) as [G|G]; [exists Panic, k, p, rest; apply (V_overlong _ _ _ _ _ _ _ pl); assumption|].
    assert (T : t = HandshakeTy \/ t <> HandshakeTy) by (destruct t; (left; reflexivity) || (right; discriminate)).
    destruct T as [->|T].
    2:{ destruct (means_total t pl T) as [x M]. exists x, (k + 1), p, rest. apply (V_record _ _ _ _ _ _ _ pl); assumption. }
    destruct pl as [|b pl]; [exists (Err UnexpectedMessage), (k + 1), p, rest; apply V_empty; assumption|].
    destruct (IH (k + 1) (p ++ b :: pl) rest) as (x & k' & pend' & bs' & R).
    { pose proof (long_wire HandshakeTy maj min f rest). unfold zlen in *. lia. } { lia. } { lia. }
    exists x, k', pend', bs'. apply (V_more _ _ _ _ _ _ (b :: pl)); try assumption. split; [rewrite zlen_cons; pose proof (zlen_nonneg pl); lia|exact G].
Qed.
Lemma filling_rd m key iv n buf k pend bs x buf' k' pend' bs' : filling key iv n buf k pend bs x buf' k' pend' bs' -> forall len done c, (length done + n)%nat = len ->
  has m c key iv buf k pend bs -> k + zlen bs < 2 ^ 64 ->
  exists c', rd m len done c (match x with Ok l => Ok (done ++ l) | o => o end) c' /\ has m c' key iv buf' k' pend' bs' /\ c_writer c' = c_writer c /\ c_rng c' = c_rng c.
Proof.
  assert (Start : forall buf len done c, c_buf c = buf -> (length done + length buf < len)%nat -> forall x c', rd m len (done ++ buf) (with_buf c (c_reader c) []) x c' -> rd m len done c x c').
  { intros b len done c B L x0 c' R. destruct b as [|b bs0]; [rewrite app_nil_r in R; destruct c; cbn in *; subst; exact R|].
    apply Rd_copy; [cbn in L; lia|rewrite B; discriminate|]. rewrite B, firstn_all2, skipn_all2 by (cbn in *; lia). exact R. }
  induction 1 as [n buf k pend bs L|n buf k pend bs d k1 pend1 bs1 x buf' k' pend' bs' L R F IH|n buf k pend bs e k1 pend1 bs1 L R|n buf k pend bs k1 pend1 bs1 L R|n buf k pend bs d k1 pend1 bs1 buf' k' pend' bs' L R F IH];
    intros len done c Hl (H & B) Room.
  - destruct n as [|n].
    + exists c. rewrite app_nil_r. split; [apply Rd_full; lia|]. split; [split; [exact H|exact B]|auto].
    + exists (with_buf c (c_reader c) (skipn (S n) buf)). split; [|split; [split; [exact H|reflexivity]|auto]].
      apply Rd_copy; [lia|rewrite B; intros ->; cbn in L; lia|]. replace (len - length done)%nat with (S n) by lia. rewrite B. apply Rd_full. rewrite app_length, firstn_length. lia.
  - destruct (receive_sound m _ _ _ _ _ _ _ _ _ R _ H Room) as (r' & A & H' & Rm).
    destruct (IH len (done ++ buf) (with_buf c r' d)) as (c' & Q & Hc & W & G); [rewrite app_length; lia|split; [exact H'|reflexivity]|lia|].
    exists c'. rewrite app_assoc. split; [|split; [exact Hc|auto]]. apply (Start buf); [exact B|lia|].
    eapply Rd_data; [rewrite app_length; lia|reflexivity|exact A|]. destruct d as [|b d]; [rewrite firstn_nil, skipn_nil, app_nil_r; exact Q|].
    inversion Q; subst; try (exfalso; rewrite app_length in *; lia); try (exfalso; cbn in *; congruence); try assumption.
  - destruct (receive_sound m _ _ _ _ _ _ _ _ _ R _ H Room) as (r' & A & H' & Rm).
    exists (with_buf c r' []). split; [|split; [split; [exact H'|reflexivity]|auto]]. apply (Start buf); [exact B|lia|].
    eapply (Rd_err m len (done ++ buf) (with_buf c (c_reader c) [])); [rewrite app_length; lia|reflexivity|exact A].
  - destruct (receive_sound m _ _ _ _ _ _ _ _ _ R _ H Room) as (r' & A & H' & Rm).
    exists (with_buf c r' []). split; [|split; [split; [exact H'|reflexivity]|auto]]. apply (Start buf); [exact B|lia|].
    eapply (Rd_panic m len (done ++ buf) (with_buf c (c_reader c) [])); [rewrite app_length; lia|reflexivity|exact A].
  - destruct (receive_sound m _ _ _ _ _ _ _ _ _ R _ H Room) as (r' & A & H' & Rm).
    destruct (IH len (done ++ buf) (with_buf c r' d)) as (c' & Q & Hc & W & G); [rewrite app_length; lia|split; [exact H'|reflexivity]|lia|].
    exists c'. split; [|split; [exact Hc|auto]]. apply (Start buf); [exact B|lia|].
    eapply Rd_data; [rewrite app_length; lia|reflexivity|exact A|]. destruct d as [|b d]; [rewrite firstn_nil, skipn_nil, app_nil_r; exact Q|].
    inversion Q; subst; try (exfalso; rewrite app_length in *; lia); try (exfalso; cbn in *; congruence); try assumption.
Qed.
Lemma filling_sound m key iv n buf k pend bs x buf' k' pend' bs' : filling key iv n buf k pend bs x buf' k' pend' bs' -> forall c,
  has m c key iv buf k pend bs -> k + zlen bs < 2 ^ 64 ->
  exists c', client_read m n c = (x, c') /\ has m c' key iv buf' k' pend' bs' /\ c_writer c' = c_writer c /\ c_rng c' = c_rng c.
Proof.
  intros F c H Room. destruct (filling_rd m _ _ _ _ _ _ _ _ _ _ _ _ F n [] c eq_refl H Room) as (c' & R & Q). exists c'. split; [|exact Q].
  apply rd_read in R. rewrite R. destruct x; reflexivity.
Qed.
Lemma filling_total key iv : length key = 32%nat -> length iv = 12%nat -> forall j n buf k pend bs, (length bs < j)%nat -> 0 <= k -> k + zlen bs < 2 ^ 64 ->
  exists x buf' k' pend' bs', filling key iv n buf k pend bs x buf' k' pend' bs'.
Proof.
  intros Lk Li j. induction j as [|j IH]; intros n buf k pend bs Lj K0 Room; [lia|].
  destruct (Nat.leb_spec n (length buf)) as [L|L]; [exists (Ok (firstn n buf)), (skipn n buf), k, pend, bs; apply F_enough; exact L|].
  destruct (receive_total key iv Lk Li (S (length bs)) k pend bs ltac:(lia) K0 Room) as (x & k1 & pend1 & bs1 & R).
  destruct (receive_shorter _ _ _ _ _ _ _ _ _ R) as (R1 & R2 & R3).
  destruct x as [d|e| |].
  - destruct (IH (n - length buf)%nat d k1 pend1 bs1) as (x & buf' & k' & pend' & bs' & F); [specialize (R3 d eq_refl); lia|lia|lia|].
    destruct x as [l|e| |].
    + exists (Ok (buf ++ l)), buf', k', pend', bs'. eapply F_data; eassumption.
    + inversion F.
    + exists Panic, buf', k', pend', bs'. eapply F_panic_later; eassumption.
    + inversion F.
  - exists (Ok buf), [], k1, pend1, bs1. eapply F_stop; eassumption.
  - exists Panic, [], k1, pend1, bs1. apply F_panic; assumption.
  - exfalso. clear - R. remember Diverge as y eqn:E. induction R; try discriminate; auto.
    + destruct H0 as [(-> & _)|(e & -> & _)]; discriminate E.
    + destruct H2; discriminate E.
Qed.

(** ** Exactly these *)
Lemma poised_once m r key iv k pend bs k' pend' bs' : poised m r key iv k pend bs -> poised m r key iv k' pend' bs' -> k = k' /\ pend = pend' /\ bs = bs'.
Proof. intros ((_ & _ & A & _) & _ & B & C) ((_ & _ & A' & _) & _ & B' & C'). subst. auto. Qed.
Theorem receive_iff m r key iv k pend bs x k' pend' bs' : poised m r key iv k pend bs -> k + zlen bs < 2 ^ 64 ->
  (receive key iv k pend bs x k' pend' bs' <-> exists r', read_application_data m r = (x, r') /\ poised m r' key iv k' pend' bs').
Proof.
  intros H Room. split.
  - intros R. destruct (receive_sound m _ _ _ _ _ _ _ _ _ R r H Room) as (r' & A & B & _). exists r'. auto.
  - intros (r' & E & H'). pose proof H as ((_ & _ & _ & Lk & Li & K0) & _).
    destruct (receive_total key iv Lk Li (S (length bs)) k pend bs ltac:(lia) K0 Room) as (y & k2 & pend2 & bs2 & R).
    destruct (receive_sound m _ _ _ _ _ _ _ _ _ R r H Room) as (r2 & A & B & _). rewrite E in A. apply pair_equal_spec in A as [<- <-].
    destruct (poised_once _ _ _ _ _ _ _ _ _ _ H' B) as (-> & -> & ->). exact R.
Qed.
Theorem filling_iff m c key iv n buf k pend bs x buf' k' pend' bs' : has m c key iv buf k pend bs -> k + zlen bs < 2 ^ 64 ->
  (filling key iv n buf k pend bs x buf' k' pend' bs' <-> exists c', client_read m n c = (x, c') /\ has m c' key iv buf' k' pend' bs').
Proof.
  intros H Room. split.
  - intros R. destruct (filling_sound m _ _ _ _ _ _ _ _ _ _ _ _ R c H Room) as (c' & A & B & _). exists c'. auto.
  - intros (c' & E & H'). pose proof H as (((_ & _ & _ & Lk & Li & K0) & _) & _).
    destruct (filling_total key iv Lk Li (S (length bs)) n buf k pend bs ltac:(lia) K0 Room) as (y & buf2 & k2 & pend2 & bs2 & R).
    destruct (filling_sound m _ _ _ _ _ _ _ _ _ _ _ _ R c H Room) as (c2 & A & B & _). rewrite E in A. apply pair_equal_spec in A as [<- <-].
    destruct H' as [H1 H2]. destruct B as [B1 B2]. destruct (poised_once _ _ _ _ _ _ _ _ _ _ H1 B1) as (-> & -> & ->). rewrite <- H2, B2. exact R.
Qed.
Lemma new_reader m key iv k pend bs : length key = 32%nat -> length iv = 12%nat -> 0 <= k ->
  poised m (Reader (source bs) (Some (new_decryptor m key)) k pend (Some iv)) key iv k pend bs.
Proof. intros Lk Li K0. split; [repeat split; assumption|]. split; [apply source_clean|]. split; [reflexivity|apply source_stream]. Qed.
(** the answer exists and is the only one *)
Theorem receive_one key iv k pend bs : length key = 32%nat -> length iv = 12%nat -> 0 <= k -> k + zlen bs < 2 ^ 64 ->
  exists x k' pend' bs', receive key iv k pend bs x k' pend' bs' /\
    forall y k2 pend2 bs2, receive key iv k pend bs y k2 pend2 bs2 -> y = x /\ k2 = k' /\ pend2 = pend' /\ bs2 = bs'.
Proof.
  intros Lk Li K0 Room. destruct (receive_total key iv Lk Li (S (length bs)) k pend bs ltac:(lia) K0 Room) as (x & k' & pend' & bs' & R).
  exists x, k', pend', bs'. split; [exact R|]. intros y k2 pend2 bs2 R2. pose proof (new_reader Release key iv k pend bs Lk Li K0) as H.
  destruct (receive_sound _ _ _ _ _ _ _ _ _ _ R _ H Room) as (r1 & A1 & B1 & _). destruct (receive_sound _ _ _ _ _ _ _ _ _ _ R2 _ H Room) as (r2 & A2 & B2 & _).
  rewrite A1 in A2. apply pair_equal_spec in A2 as [<- <-]. destruct (poised_once _ _ _ _ _ _ _ _ _ _ B2 B1) as (-> & -> & ->). auto.
Qed.
Theorem filling_one key iv n buf k pend bs : length key = 32%nat -> length iv = 12%nat -> 0 <= k -> k + zlen bs < 2 ^ 64 ->
  exists x buf' k' pend' bs', filling key iv n buf k pend bs x buf' k' pend' bs' /\
    forall y buf2 k2 pend2 bs2, filling key iv n buf k pend bs y buf2 k2 pend2 bs2 -> y = x /\ buf2 = buf' /\ k2 = k' /\ pend2 = pend' /\ bs2 = bs'.
Proof.
  intros Lk Li K0 Room. destruct (filling_total key iv Lk Li (S (length bs)) n buf k pend bs ltac:(lia) K0 Room) as (x & buf' & k' & pend' & bs' & R).
  exists x, buf', k', pend', bs'. split; [exact R|]. intros y buf2 k2 pend2 bs2 R2.
  assert (H : has Release (Client (Reader (source bs) (Some (new_decryptor Release key)) k pend (Some iv)) (writer_new []) [] buf) key iv buf k pend bs) by (split; [apply new_reader; assumption|reflexivity]).
  destruct (filling_sound _ _ _ _ _ _ _ _ _ _ _ _ _ R _ H Room) as (r1 & A1 & [B1 D1] & _). destruct (filling_sound _ _ _ _ _ _ _ _ _ _ _ _ _ R2 _ H Room) as (r2 & A2 & [B2 D2] & _).
  rewrite A1 in A2. apply pair_equal_spec in A2 as [<- <-]. destruct (poised_once _ _ _ _ _ _ _ _ _ _ B2 B1) as (-> & -> & ->). rewrite <- D1, <- D2. auto.
Qed.
Lemma connecting_len m g ss bs n extra rest : connecting m g ss bs n extra rest -> n + zlen rest <= zlen bs.
Proof.
  intros (_ & l & msgs & clear & maj & min & fs & sealed & _ & _ & _ & _ & _ & SR & <- & _ & _ & ->). apply run_length in SR.
  rewrite !zlen_app. pose proof (zlen_nonneg (clear_run l)). pose proof (zlen_nonneg (wire ChangeCipherSpecTy maj min [x01])). lia.
Qed.
(** from the transport's bytes to what [read] returns *)
Theorem connection_reads m s p g ss n extra rest : healthy (writer_new p) -> clean s -> zlen (stream s) < 2 ^ 64 -> connecting m g ss (stream s) n extra rest ->
  exists c, client_new m s p g = (Ok tt, c) /\ has m c (k_server (s_keys ss)) (iv_server (s_keys ss)) [] n extra rest /\ n + zlen rest < 2 ^ 64.
Proof.
  intros H C Room K. pose proof (connecting_len _ _ _ _ _ _ _ K). destruct (stream_accepted m s p g ss n extra rest H Room K) as (_ & c & E & B & S & Kd).
  exists c. split; [exact E|]. split; [|lia]. split; [split; [exact Kd|]; split; [exact (connected_clean _ _ _ _ _ C E)|split; [exact B|exact S]]|].
  apply client_new_cases in E. inversion E. assumption.
Qed.

(** ** Witnesses *)
Lemma not_protected key iv k t maj min p : ~ protects key iv k t maj min p [].
Proof. intros P. apply protects_len in P. pose proof (zlen_nonneg p). change (zlen []) with 0 in P. lia. Qed.
Lemma none_nil : incomplete []. Proof. apply none_iff. reflexivity. Qed.
Lemma unknown_ff t : xff <> z2b (rfc_content_type t). Proof. destruct t; discriminate. Qed.
(** two bytes of data, a close_notify that is not obeyed, a byte that begins no record and is skipped *)
Lemma reading_run key iv : filling key iv 4 [x7a] 1 []
    (sealed_record key iv 1 ApplicationDataTy [x61; x62] ++ sealed_record key iv 2 AlertTy [x01; x00] ++ xff :: sealed_record key iv 3 ApplicationDataTy [x63])
    (Ok [x7a; x61; x62]) [] 3 [] (sealed_record key iv 3 ApplicationDataTy [x63]) /\
  filling key iv 1 [] 3 [] (sealed_record key iv 3 ApplicationDataTy [x63]) (Ok [x63]) [] 4 [] [].
Proof.
  assert (St : forall k t d x bs, zlen d <= 16384 -> means t d x -> receive key iv k [] (sealed_record key iv k t d ++ bs) x (k + 1) [] bs).
  { intros k t d x bs L M. apply (V_record key iv k [] t x03 x03 d); [exact none_nil|reflexivity|exact L|exact M]. }
  split.
  - eapply (F_data key iv 4 [x7a] 1 [] _ [x61; x62] 2 [] _ [x61; x62]); [cbn; lia|apply (St 1); [cbv; discriminate|constructor]|].
    eapply (F_data key iv 3 [x61; x62] 2 [] _ [] 3 [] _ []); [cbn; lia|apply (St 2); [cbv; discriminate|apply (M_close AL_warning [])]|].
    apply (F_stop key iv 1 [] 3 [] (xff :: sealed_record key iv 3 ApplicationDataTy [x63]) UnexpectedMessage 3 []); [cbn; lia|]. apply V_type; [exact none_nil|exact unknown_ff].
  - rewrite <- (app_nil_r (sealed_record _ _ _ _ _)).
    eapply (F_data key iv 1 [] 3 [] _ [x63] 4 [] [] [x63]); [cbn; lia|apply (St 3); [cbv; discriminate|constructor]|].
    apply (F_enough key iv 1 [x63]). cbn. lia.
Qed.
(** a record without a tag, then a HelloRequest in two records: a panic *)
Lemma crashing_run key iv bs : receive key iv 5 [] (wire AlertTy x03 x03 [] ++ bs) (Err BadRecordMac) 5 [] bs /\
  receive key iv 5 [] (sealed_record key iv 5 HandshakeTy [x00; x00] ++ sealed_record key iv 6 HandshakeTy [x00; x00] ++ bs) Panic 7 [] bs.
Proof.
  split; [apply V_forged; [exact none_nil|cbv; discriminate|apply not_protected]|].
  apply (V_more key iv 5 [] x03 x03 [x00; x00]); [exact none_nil|reflexivity|split; cbv; (reflexivity || discriminate)|].
  apply (V_more key iv 6 [x00; x00] x03 x03 [x00; x00]); [exists x00, [], [x00; x00]; split; [reflexivity|split; [reflexivity|discriminate]]|reflexivity|split; cbv; (reflexivity || discriminate)|].
  apply (V_message key iv 7 x00 [] []); [reflexivity|]. left. split; [reflexivity|]. exists hello_request. reflexivity.
Qed.
Lemma reading_client m : exists s c key iv, client_new m s [] one_tape = (Ok tt, c) /\
  has m c key iv [] 1 [] (sealed_record key iv 1 ApplicationDataTy [x61; x62] ++ sealed_record key iv 2 AlertTy [x01; x00] ++ xff :: sealed_record key iv 3 ApplicationDataTy [x63]).
Proof.
  destruct (conforming_run m odd_server (fun ss => let key := k_server (s_keys ss) in let iv := iv_server (s_keys ss) in
    sealed_record key iv 1 ApplicationDataTy [x61; x62] ++ sealed_record key iv 2 AlertTy [x01; x00] ++ xff :: sealed_record key iv 3 ApplicationDataTy [x63]) odd_wf)
    as (s & ss & c & C & _ & E & _ & K & _ & _ & B & Bc & S).
  exists s, c, (k_server (s_keys ss)), (iv_server (s_keys ss)). split; [exact E|]. split; [|exact Bc]. split; [exact K|]. split; [exact (connected_clean _ _ _ _ _ C E)|]. split; [exact B|exact S].
Qed.
