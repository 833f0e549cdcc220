(** C91: what construction answers, for every stream of bytes. *)
From Verif Require Import Spec_Build P_Util P_Codec P_CodecProps P_RecordW P_RecordR P_Record P_Record2 P_Aead P_Ecdhe P_Halt P_Client P_Client2 P_App P_App2 P_Panic P_Client3 P_Fault P_Client4 P_Client5 P_Pending P_Open P_Eof P_Accept P_Receive.
From Coq Require Import ZifyBool ZifyNat ZifyN.
Local Open Scope list_scope.
Local Open Scope Z_scope.
#[local] Opaque SHA256 HMAC aead_seal aead_decrypt aead_encrypt compute_keys PRF nmul.

(** ** One record *)
Definition guarded (m : mode) (r : reader) (v : cover) (pend bs : bytes) : Prop :=
  match v with Clear => r_dec r = None /\ 0 <= r_count r | Sealed key iv k => keyed m r key iv k end /\ clean (r_src r) /\ r_buf r = pend /\ stream (r_src r) = bs.
Definition room (r : reader) : Z := r_count r + zlen (stream (r_src r)).
Lemma guarded_src m r v pend bs s : guarded m r v pend bs -> clean s -> guarded m (set_src r s) v pend (stream s).
Proof. intros (V & _ & B & _) C. split; [destruct v; exact V|]. split; [exact C|]. split; [exact B|reflexivity]. Qed.
Lemma guarded_buf m r v pend bs q : guarded m r v pend bs -> guarded m (set_buf r q) v q bs.
Proof. intros (V & C & _ & S). split; [destruct v; exact V|]. split; [exact C|]. split; [reflexivity|exact S]. Qed.
Lemma record_plain m r t maj min f rest : clean (r_src r) -> r_dec r = None -> 0 <= r_count r -> r_count r + 1 < 2 ^ 64 -> zlen f <= 18432 -> stream (r_src r) = wire t maj min f ++ rest ->
  exists s', stream s' = rest /\ clean s' /\
    (zlen f <= 16384 -> read_record m r = (Ok (Rec t maj min f), Reader s' None (r_count r + 1) (r_buf r) (r_iv r))) /\
    (16384 < zlen f -> read_record m r = (Err RecordOverflow, set_src r s')).
Proof.
  intros C D K0 K1 L S. destruct (read_record_wire m r t maj min f rest S) as (s' & S' & Cl & E); [unfold ENC_RECORD_MAX_LEN; lia|]. specialize (Cl C).
  exists s'. split; [exact S'|]. split; [exact Cl|]. rewrite E. unfold finish, mbind, unprotect, record_new. cbn [set_src r_dec]. rewrite D. unfold RECORD_MAX_LEN. split; intros Lf.
  - replace (2 ^ 14 <? zlen f) with false by (symmetry; apply Z.ltb_ge; lia). unfold r_bump. cbn [set_src r_count]. rewrite ck_ok by lia. cbn [r_src r_dec r_buf r_iv set_src]. rewrite D. reflexivity.
  - replace (2 ^ 14 <? zlen f) with true by (symmetry; apply Z.ltb_lt; lia). reflexivity.
Qed.
Definition got (y : res (content_type * bytes)) (z : res record) : Prop :=
  match y with Ok (t, p) => exists maj min, z = Ok (Rec t maj min p) | Err e => z = Err e | Panic => z = Panic | Diverge => False end.
Lemma fetch_sound m v bs y v' bs' : fetch v bs y v' bs' -> forall r pend, guarded m r v pend bs -> room r < 2 ^ 64 ->
  exists z r', read_record m r = (z, r') /\ got y z /\ guarded m r' v' pend bs' /\ room r' <= room r.
Proof.
  assert (Open : forall v t maj min f bs x v', unseals v t maj min f x v' -> zlen f <= 18432 -> forall r pend, guarded m r v pend (wire t maj min f ++ bs) -> room r < 2 ^ 64 ->
    exists z r', read_record m r = (z, r') /\ got (match x with Ok p => Ok (t, p) | Err e => Err e | Panic => Panic | Diverge => Diverge end) z /\ guarded m r' v' pend bs /\ room r' <= room r).
  { intros v0 t maj min f bs0 x v0' O L r pend (V & C & B & S) Rm. unfold room in Rm |- *. rewrite S, long_wire in *. pose proof (zlen_nonneg f). pose proof (zlen_nonneg bs0).
    destruct O as [t maj min f Lf|t maj min f Lf|key iv k t maj min f p P Lp|key iv k t maj min f p P Lp|key iv k t maj min f P].
    - destruct V as [D K0]. destruct (record_plain m r t maj min f bs0 C D K0 ltac:(lia) L S) as (s' & S' & C' & E & _). exists (Ok (Rec t maj min f)). eexists. split; [exact (E Lf)|].
      split; [cbn; eauto|]. unfold guarded. cbn [r_dec r_count r_src r_buf]. rewrite S'. split; [|lia]. split; [split; [reflexivity|lia]|]. split; [exact C'|]. split; [exact B|reflexivity].
    - destruct V as [D K0]. destruct (record_plain m r t maj min f bs0 C D K0 ltac:(lia) L S) as (s' & S' & C' & _ & E). exists (Err RecordOverflow). eexists. split; [exact (E Lf)|].
      split; [reflexivity|]. unfold guarded. cbn [set_src r_dec r_count r_src r_buf]. rewrite S'. split; [|lia]. split; [split; [exact D|lia]|]. split; [exact C'|]. split; [exact B|reflexivity].
    - pose proof V as (_ & _ & Cn & _ & _ & K0). destruct (record_whole m r key iv k t maj min f bs0 C V ltac:(lia) L S) as (r1 & S1 & C1 & B1 & [(p' & Q & _ & E & Kd1)|[(p' & Q & Lp' & _)|(Nn & _)]]);
        [|rewrite (protects_once _ _ _ _ _ _ _ _ _ _ _ V ltac:(lia) L Q P) in Lp'; lia|destruct (Nn _ P)].
      rewrite (protects_once _ _ _ _ _ _ _ _ _ _ _ V ltac:(lia) L Q P) in E. exists (Ok (Rec t maj min p)), r1. split; [exact E|]. split; [cbn; eauto|].
      split; [split; [exact Kd1|]; split; [exact C1|]; split; [rewrite B1; exact B|exact S1]|]. rewrite S1. destruct Kd1 as (_ & _ & -> & _). lia.
    - pose proof V as (_ & _ & Cn & _ & _ & K0). destruct (record_whole m r key iv k t maj min f bs0 C V ltac:(lia) L S) as (r1 & S1 & C1 & B1 & [(p' & Q & Lp' & _)|[(p' & Q & _ & E & Kd1)|(Nn & _)]]);
        [rewrite (protects_once _ _ _ _ _ _ _ _ _ _ _ V ltac:(lia) L Q P) in Lp'; lia| |destruct (Nn _ P)].
      exists Panic, r1. split; [exact E|]. split; [reflexivity|].
      split; [split; [exact Kd1|]; split; [exact C1|]; split; [rewrite B1; exact B|exact S1]|]. rewrite S1. destruct Kd1 as (_ & _ & -> & _). lia.
    - pose proof V as (_ & _ & Cn & _ & _ & K0). destruct (record_whole m r key iv k t maj min f bs0 C V ltac:(lia) L S) as (r1 & S1 & C1 & B1 & [(p' & Q & _)|[(p' & Q & _)|(_ & E & Kd1)]]);
        [destruct (P _ Q)|destruct (P _ Q)|].
      exists (Err BadRecordMac), r1. split; [exact E|]. split; [reflexivity|].
      split; [split; [exact Kd1|]; split; [exact C1|]; split; [rewrite B1; exact B|exact S1]|]. rewrite S1. destruct Kd1 as (_ & _ & -> & _). lia. }
  intros F. destruct F as [v bs Cu|v b bs T|v t maj min n bs T|v t maj min f bs p v' L O|v t maj min f bs e v' L O|v t maj min f bs v' L O]; intros r pend G Rm; try exact (Open _ _ _ _ _ _ _ _ O L _ _ G Rm); pose proof G as (V & C & B & S).
  - exists (Err IoFailure), (set_src r []). split; [apply record_cut; [exact C|rewrite S; exact Cu]|]. split; [reflexivity|]. split; [exact (guarded_src _ _ _ _ _ [] G (Forall_nil _))|].
    unfold room. cbn [set_src r_count r_src stream]. pose proof (zlen_nonneg (stream (r_src r))). change (zlen []) with 0. lia.
  - destruct (record_type m r b bs C S T) as (s1 & S1 & C1 & E). eexists _, _. split; [exact E|]. split; [reflexivity|]. split; [rewrite <- S1; exact (guarded_src _ _ _ _ _ s1 G C1)|].
    unfold room. cbn [set_src r_count r_src]. rewrite S1, S, zlen_cons. lia.
  - destruct (record_long m r t maj min n bs C S T) as (s1 & S1 & C1 & E). eexists _, _. split; [exact E|]. split; [reflexivity|]. split; [rewrite <- S1; exact (guarded_src _ _ _ _ _ s1 G C1)|].
    unfold room. cbn [set_src r_count r_src]. rewrite S1, S, !zlen_cons, zlen_app. pose proof (zlen_nonneg (be 2 n)). lia.
Qed.

(** ** One message *)
Lemma carries_handled t maj min p x r : carries t p x ->
  handle_record (Rec t maj min p) r = (match x with Ok msg => Ok (Some msg) | Err e => Err e | Panic => Panic | Diverge => Diverge end, r) /\ x <> Diverge.
Proof.
  intros M. unfold handle_record. destruct M as [p|l d q|p H| |p H]; cbn [rc_type rc_fragment].
  - split; [reflexivity|discriminate].
  - rewrite level_here, desc_here. split; [reflexivity|discriminate].
  - split; [|discriminate]. destruct p as [|a [|b q]]; try reflexivity.
    destruct (from_code alert_level_code alert_level_all (b2z a)) as [l|] eqn:El; [|reflexivity].
    destruct (from_code alert_desc_code alert_desc_all (b2z b)) as [d|] eqn:Ed; [|reflexivity].
    exfalso. apply level_inv in El. apply desc_inv in Ed. subst. apply (H l d q). reflexivity.
  - split; [reflexivity|discriminate].
  - split; [|discriminate]. destruct p as [|a [|b q]]; try reflexivity. destruct (Z.eqb_spec (b2z a) 1) as [E|E]; [|reflexivity].
    exfalso. apply H. f_equal. apply b2z_inj. exact E.
Qed.
Lemma carries_total t p : t <> HandshakeTy -> exists x, carries t p x.
Proof.
  intros N. destruct t; [| |contradiction|eexists; apply K_data].
  - destruct (list_eq_dec Byte.byte_eq_dec p [x01]) as [->|H]; eexists; [apply K_ccs|apply K_no_ccs; exact H].
  - assert (X : (exists l d q, p = z2b (rfc_alert_level l) :: z2b (rfc_alert_desc d) :: q) \/ (forall l d q, p <> z2b (rfc_alert_level l) :: z2b (rfc_alert_desc d) :: q)).
    { destruct p as [|a [|b q]]; [right; discriminate|right; discriminate|].
      destruct (from_code alert_level_code alert_level_all (b2z a)) as [l|] eqn:El.
      2:{ right. intros l d q' E. injection E as -> _ _. rewrite level_here in El. discriminate El. }
      destruct (from_code alert_desc_code alert_desc_all (b2z b)) as [d|] eqn:Ed.
      2:{ right. intros l' d q' E. injection E as _ -> _. rewrite desc_here in Ed. discriminate Ed. }
      left. apply level_inv in El. apply desc_inv in Ed. subst. eauto. }
    destruct X as [(l & d & q & ->)|X]; eexists; [apply (K_alert l d q)|apply K_no_alert; exact X].
Qed.
Lemma comes_sound m v pend bs x v' pend' bs' : comes v pend bs x v' pend' bs' -> forall r, guarded m r v pend bs -> room r < 2 ^ 64 ->
  exists r', read_message m r = (x, r') /\ guarded m r' v' pend' bs' /\ room r' <= room r.
Proof.
  intros H. induction H as [v ty body q bs h L E|v ty body q bs e L E|v pend bs e v' bs' N F|v pend bs v' bs' N F|v pend bs t p v' bs' x N F K|v pend bs v' bs' N F|v pend bs p v1 bs1 x v' pend' bs' N F Np H IH];
    intros r G Rm; pose proof G as (_ & _ & B & _); try (apply none_iff in N; rewrite <- B in N).
  - exists (set_buf r q). split; [|split; [exact (guarded_buf _ _ _ _ _ q G)|apply Z.le_refl]].
    rewrite read_message_eq, B, frame_cons, get_message_framed by (pose proof (zlen_nonneg body); lia || reflexivity). rewrite <- frame_cons, E. reflexivity.
  - exists (set_buf r q). split; [|split; [exact (guarded_buf _ _ _ _ _ q G)|apply Z.le_refl]].
    rewrite read_message_eq, B, frame_cons, get_message_framed by (pose proof (zlen_nonneg body); lia || reflexivity). rewrite <- frame_cons, E. reflexivity.
  - destruct (fetch_sound m _ _ _ _ _ F r pend G Rm) as (z & r1 & E & -> & G1 & R1). exists r1. rewrite message_record by exact N. unfold mbind at 1. rewrite E. auto.
  - destruct (fetch_sound m _ _ _ _ _ F r pend G Rm) as (z & r1 & E & -> & G1 & R1). exists r1. rewrite message_record by exact N. unfold mbind at 1. rewrite E. auto.
  - destruct (fetch_sound m _ _ _ _ _ F r pend G Rm) as (z & r1 & E & (maj & min & ->) & G1 & R1). exists r1. rewrite message_record by exact N. unfold mbind at 1. rewrite E.
    destruct (carries_handled t maj min p x r1 K) as [Hh Nd]. unfold mbind at 1. rewrite Hh. destruct x; auto.
  - destruct (fetch_sound m _ _ _ _ _ F r pend G Rm) as (z & r1 & E & (maj & min & ->) & G1 & R1). exists r1. rewrite message_record by exact N. unfold mbind at 1. rewrite E. auto.
  - destruct (fetch_sound m _ _ _ _ _ F r pend G Rm) as (z & r1 & E & (maj & min & ->) & G1 & R1).
    rewrite (message_absorbs _ _ _ _ _ _ N Np E), B. destruct (IH (set_buf r1 (pend ++ p))) as (r' & A & G' & R'); [exact (guarded_buf _ _ _ _ _ _ G1)|unfold room in *; cbn [set_buf r_count r_src]; lia|].
    exists r'. split; [exact A|]. split; [exact G'|]. unfold room in R' at 2. cbn [set_buf r_count r_src] in R'. unfold room in *. lia.
Qed.
Definition fits (v : cover) : Prop := match v with Clear => True | Sealed key iv k => length key = 32%nat /\ length iv = 12%nat /\ 0 <= k end.
Definition number (v : cover) : Z := match v with Clear => 0 | Sealed _ _ k => k end.
Lemma unseals_total v t maj min f : fits v -> number v + 1 < 2 ^ 64 -> zlen f <= 18432 -> exists x v', unseals v t maj min f x v' /\ x <> Diverge.
Proof.
  intros Fv Nv L. destruct v as [|key iv k].
  - destruct (Z.ltb_spec 16384 (zlen f)); eexists _, _; split; [apply O_clear_long; assumption|discriminate|apply O_clear; assumption|discriminate].
  - destruct Fv as (Lk & Li & K0). destruct (protected_or_not key iv k t maj min f Lk Li K0 Nv L) as [(p & P)|P]; [|eexists _, _; split; [apply O_forged; exact P|discriminate]].
    destruct (Z.ltb_spec 16384 (zlen p)); eexists _, _; (split; [solve [eapply O_overlong; eassumption | eapply O_sealed; eassumption]|discriminate]).
Qed.
Lemma fetch_total v bs : fits v -> number v + zlen bs < 2 ^ 64 -> exists y v' bs', fetch v bs y v' bs' /\ y <> Diverge.
Proof.
  intros Fv Nv. destruct (beginnings bs) as [Cu|[(b & rest & -> & T)|[(t & maj & min & j & rest & -> & J)|(t & maj & min & f & rest & -> & L)]]].
  - eexists _, _, _. split; [apply G_end; exact Cu|discriminate].
  - eexists _, _, _. split; [apply G_type; exact T|discriminate].
  - eexists _, _, _. split; [apply G_long; exact J|discriminate].
  - rewrite long_wire in Nv. pose proof (zlen_nonneg f). pose proof (zlen_nonneg rest). destruct (unseals_total v t maj min f Fv ltac:(lia) L) as (x & v' & O & Nd).
    destruct x as [p|e| |]; [| | |contradiction]; eexists _, _, _; (split; [solve [eapply G_record; eassumption | eapply G_refused; eassumption | eapply G_panic; eassumption]|discriminate]).
Qed.
Lemma fetch_shorter v bs y v' bs' : fetch v bs y v' bs' -> (fits v -> fits v') /\ number v' + zlen bs' <= number v + zlen bs /\ (forall tp, y = Ok tp -> (length bs' < length bs)%nat).
Proof.
  assert (X : forall v t maj min f x v', unseals v t maj min f x v' -> (fits v -> fits v') /\ number v' <= number v + 1).
  { intros v0 t maj min f x v0' []; split; cbn; intros; lia || tauto || (repeat split; try tauto; lia). }
  intros [v0 bs0 Cu|v0 b bs0 T|v0 t maj min n bs0 T|v0 t maj min f bs0 p v0' L O|v0 t maj min f bs0 e v0' L O|v0 t maj min f bs0 v0' L O]; try (apply X in O as [O1 O2]; pose proof (long_wire t maj min f bs0) as W; pose proof (zlen_nonneg f)).
  - split; [auto|]. split; [pose proof (zlen_nonneg bs0); change (zlen []) with 0; lia|discriminate].
  - split; [auto|]. split; [rewrite zlen_cons; lia|discriminate].
  - split; [auto|]. split; [rewrite !zlen_cons, zlen_app; pose proof (zlen_nonneg (be 2 n)); lia|discriminate].
  - split; [exact O1|]. split; [lia|]. intros _ _. unfold zlen in *. lia.
  - split; [exact O1|]. split; [lia|discriminate].
  - split; [exact O1|]. split; [lia|discriminate].
Qed.
Lemma comes_total : forall n v pend bs, (length bs < n)%nat -> fits v -> number v + zlen bs < 2 ^ 64 -> exists x v' pend' bs', comes v pend bs x v' pend' bs'.
Proof.
  induction n as [|n IH]; intros v pend bs Ln Fv Nv; [lia|].
  destruct (buffer_split pend) as [(ty & body & p & q & L & F & Q & ->)|(ty & body & q & L & ->)].
  2:{ pose proof (hs_read_value (frame ty body)) as V. destruct (hs_read (frame ty body)) as [[h rest]|e| |] eqn:E; try destruct V.
      - pose proof E as E'. apply hs_read_split in E' as (_ & _ & _ & _ & _ & _ & _ & ->). eexists _, _, _, _. apply N_message; eassumption.
      - eexists _, _, _, _. apply N_malformed; eassumption. }
  assert (N : incomplete p) by (exists ty, body, q; auto). clear ty body q L F Q.
  destruct (fetch_total v bs Fv Nv) as (y & v1 & bs1 & F & Nd). destruct (fetch_shorter _ _ _ _ _ F) as (F1 & F2 & F3).
  destruct y as [[t pl]|e| |]; [|eexists _, _, _, _; eapply N_error; eassumption|eexists _, _, _, _; eapply N_panic; eassumption|contradiction].
  assert (T : t = HandshakeTy \/ t <> HandshakeTy) by (destruct t; (left; reflexivity) || (right; discriminate)). destruct T as [->|T].
  2:{ destruct (carries_total t pl T) as [x K]. eexists _, _, _, _. eapply N_other; eassumption. }
  destruct pl as [|b pl]; [eexists _, _, _, _; eapply N_empty; eassumption|].
  destruct (IH v1 (p ++ b :: pl) bs1) as (x & v' & pend' & bs' & C); [specialize (F3 _ eq_refl); lia|auto|lia|].
  eexists _, _, _, _. eapply N_more; [exact N|exact F|discriminate|exact C].
Qed.

(** ** One awaited message *)
Lemma asks_sound m v pend bs x v' pend' bs' : asks v pend bs x v' pend' bs' -> forall r, guarded m r v pend bs -> room r < 2 ^ 64 ->
  exists r', read_handshake m r = (x, r') /\ guarded m r' v' pend' bs' /\ room r' <= room r.
Proof.
  intros (y & C & ->) r G Rm. destruct (comes_sound m _ _ _ _ _ _ _ C r G Rm) as (r' & E & G' & R'). exists r'. split; [|auto].
  unfold read_handshake, mbind. rewrite E. destruct y as [[]| | |]; reflexivity.
Qed.
Lemma ccs_sound m v pend bs x v' pend' bs' : comes v pend bs x v' pend' bs' -> forall r, guarded m r v pend bs -> room r < 2 ^ 64 ->
  exists r', read_change_cipher_spec m r = (as_ccs x, r') /\ guarded m r' v' pend' bs' /\ room r' <= room r.
Proof.
  intros C r G Rm. destruct (comes_sound m _ _ _ _ _ _ _ C r G Rm) as (r' & E & G' & R'). exists r'. split; [|auto].
  unfold read_change_cipher_spec, mbind. rewrite E. destruct x as [[]| | |]; reflexivity.
Qed.
Lemma turned_run {A} m (pick : handshake -> option A) (P : handshake -> Prop) r w g b x y r' : (forall h, P h <-> pick h <> None) -> read_handshake m r = (x, r') -> turned_away P x y ->
  exists z, expect m pick (Client r w g b) = (z, Client r' w g b) /\ failed z /\ as_fail z = y.
Proof.
  intros H E T. rewrite expect_run, E. destruct T as [h N|e|].
  - rewrite H in N. destruct (pick h); [exfalso; apply N; discriminate|]. eexists. split; [reflexivity|]. split; [exact I|reflexivity].
  - eexists. split; [reflexivity|]. split; [exact I|reflexivity].
  - eexists. split; [reflexivity|]. split; [exact I|reflexivity].
Qed.

(** ** The first flight *)
Section Flight.
  Variables (m : mode) (s : src).
  Hypothesis C : clean s.
  Hypothesis Rm : zlen (stream s) < 2 ^ 64.
  Lemma start : guarded m (reader_new s) Clear [] (stream s) /\ room (reader_new s) < 2 ^ 64.
  Proof. split; [split; [split; [reflexivity|apply Z.le_refl]|]; split; [exact C|]; split; reflexivity|exact Rm]. Qed.
  Lemma greeted_sound sh p1 b1 : greeted (stream s) sh p1 b1 -> offered sh /\ exists r1, read_handshake m (reader_new s) = (Ok (server_hello_msg sh), r1) /\ guarded m r1 Clear p1 b1 /\ room r1 < 2 ^ 64.
  Proof.
    intros [sh' p b A O]. split; [exact O|]. destruct start as [G R]. destruct (asks_sound m _ _ _ _ _ _ _ A _ G R) as (r1 & E & G1 & R1). exists r1. split; [exact E|]. split; [exact G1|lia].
  Qed.
  Lemma shown_sound sh certs p2 b2 : shown (stream s) sh certs p2 b2 -> offered sh /\ exists r1 r2, read_handshake m (reader_new s) = (Ok (server_hello_msg sh), r1) /\
    read_handshake m r1 = (Ok (certificate certs), r2) /\ guarded m r2 Clear p2 b2 /\ room r2 < 2 ^ 64.
  Proof.
    intros [sh' certs' p1 b1 p b Gr A]. apply greeted_sound in Gr as (O & r1 & E1 & G & R). split; [exact O|].
    destruct (asks_sound m _ _ _ _ _ _ _ A _ G R) as (r2 & E & G1 & R1). exists r1, r2. split; [exact E1|]. split; [exact E|]. split; [exact G1|lia].
  Qed.
  Lemma given_sound sh certs skx p3 b3 : given (stream s) sh certs skx p3 b3 -> offered sh /\ exists r1 r2 r3, read_handshake m (reader_new s) = (Ok (server_hello_msg sh), r1) /\
    read_handshake m r1 = (Ok (certificate certs), r2) /\ read_handshake m r2 = (Ok (server_key_exchange skx), r3) /\ guarded m r3 Clear p3 b3 /\ room r3 < 2 ^ 64.
  Proof.
    intros [sh' certs' skx' p2 b2 p b Gr A]. apply shown_sound in Gr as (O & r1 & r2 & E1 & E2 & G & R). split; [exact O|].
    destruct (asks_sound m _ _ _ _ _ _ _ A _ G R) as (r3 & E & G1 & R1). exists r1, r2, r3. split; [exact E1|]. split; [exact E2|]. split; [exact E|]. split; [exact G1|lia].
  Qed.
  Lemma flight_sound w g b y : flight_ends m g (stream s) y -> exists x r' g', ph_server m (Client (reader_new s) w g b) = (x, Client r' w g' b) /\ failed x /\ as_fail x = y.
  Proof.
    intros F. unfold ph_server. destruct F as [x y v p b0 A T|sh p b0 A O|sh p1 b1 x y v p b0 Gr A T|sh certs p2 b2 x y v p b0 Gr A T|sh certs skx p3 b3 e g' Gr K|sh certs skx p3 b3 g' Gr K|sh certs skx p3 b3 kp g' x y v p b0 Gr K A T].
    - destruct start as [G R]. destruct (asks_sound m _ _ _ _ _ _ _ A _ G R) as (r1 & E & _). destruct (turned_run m pick_server_hello _ _ w g b _ _ _ picks_hello E T) as (z & Ez & Fz & <-).
      unfold mbind at 1. rewrite Ez. destruct z; try destruct Fz; eexists _, _, _; (split; [reflexivity|]; split; [exact I|reflexivity]).
    - destruct start as [G R]. destruct (asks_sound m _ _ _ _ _ _ _ A _ G R) as (r1 & E & _). unfold mbind at 1. rewrite expect_run, E. cbn [pick_server_hello]. unfold mbind at 1, mlift at 1.
      rewrite check_refuses by exact O. eexists _, _, _; (split; [reflexivity|]; split; [exact I|reflexivity]).
    - apply greeted_sound in Gr as (O & r1 & E1 & G & R). unfold mbind at 1. rewrite expect_run, E1. cbn [pick_server_hello]. unfold mbind at 1, mlift at 1. rewrite (proj1 (offered_check _) O).
      destruct (asks_sound m _ _ _ _ _ _ _ A _ G R) as (r2 & E & _). destruct (turned_run m pick_certificate _ _ w g b _ _ _ picks_certificate E T) as (z & Ez & Fz & <-).
      unfold mbind at 1. rewrite Ez. destruct z; try destruct Fz; eexists _, _, _; (split; [reflexivity|]; split; [exact I|reflexivity]).
    - apply shown_sound in Gr as (O & r1 & r2 & E1 & E2 & G & R). unfold mbind at 1. rewrite expect_run, E1. cbn [pick_server_hello]. unfold mbind at 1, mlift at 1. rewrite (proj1 (offered_check _) O).
      unfold mbind at 1. rewrite expect_run, E2. cbn [pick_certificate].
      destruct (asks_sound m _ _ _ _ _ _ _ A _ G R) as (r3 & E & _). destruct (turned_run m pick_server_key_exchange _ _ w g b _ _ _ picks_exchange E T) as (z & Ez & Fz & <-).
      unfold mbind at 1. rewrite Ez. destruct z; try destruct Fz; eexists _, _, _; (split; [reflexivity|]; split; [exact I|reflexivity]).
    - apply given_sound in Gr as (O & r1 & r2 & r3 & E1 & E2 & E3 & G & R). unfold mbind at 1. rewrite expect_run, E1. cbn [pick_server_hello]. unfold mbind at 1, mlift at 1. rewrite (proj1 (offered_check _) O).
      unfold mbind at 1. rewrite expect_run, E2. cbn [pick_certificate]. unfold mbind at 1. rewrite expect_run, E3. cbn [pick_server_key_exchange].
      unfold mbind at 1, on_rng at 1. cbn [c_rng c_reader c_writer c_buf]. rewrite K. eexists _, _, _; (split; [reflexivity|]; split; [exact I|reflexivity]).
    - apply given_sound in Gr as (O & r1 & r2 & r3 & E1 & E2 & E3 & G & R). unfold mbind at 1. rewrite expect_run, E1. cbn [pick_server_hello]. unfold mbind at 1, mlift at 1. rewrite (proj1 (offered_check _) O).
      unfold mbind at 1. rewrite expect_run, E2. cbn [pick_certificate]. unfold mbind at 1. rewrite expect_run, E3. cbn [pick_server_key_exchange].
      unfold mbind at 1, on_rng at 1. cbn [c_rng c_reader c_writer c_buf]. rewrite K. eexists _, _, _; (split; [reflexivity|]; split; [exact I|reflexivity]).
    - apply given_sound in Gr as (O & r1 & r2 & r3 & E1 & E2 & E3 & G & R). unfold mbind at 1. rewrite expect_run, E1. cbn [pick_server_hello]. unfold mbind at 1, mlift at 1. rewrite (proj1 (offered_check _) O).
      unfold mbind at 1. rewrite expect_run, E2. cbn [pick_certificate]. unfold mbind at 1. rewrite expect_run, E3. cbn [pick_server_key_exchange].
      unfold mbind at 1, on_rng at 1. cbn [c_rng c_reader c_writer c_buf]. rewrite K. destruct kp as [pub pms].
      destruct (asks_sound m _ _ _ _ _ _ _ A _ G R) as (r4 & E & _). destruct (turned_run m pick_server_hello_done _ _ w g' b _ _ _ picks_done E T) as (z & Ez & Fz & <-).
      unfold mbind at 1. rewrite Ez. destruct z; try destruct Fz; eexists _, _, _; (split; [reflexivity|]; split; [exact I|reflexivity]).
  Qed.
  Lemma passes_sound g ss pend rest : passes m g (stream s) ss pend rest -> reached m s g (Complete ss) /\
    exists r, server_flight m (reader_new s) (s_sh ss) (s_certs ss) (s_ske ss) r /\ guarded m r Clear pend rest /\ room r < 2 ^ 64.
  Proof.
    intros (L & Cr & p3 & b3 & g' & Gi & K & A). apply given_sound in Gi as ((O1 & O2 & O3) & r1 & r2 & r3 & E1 & E2 & E3 & G & R).
    destruct (asks_sound m _ _ _ _ _ _ _ A _ G R) as (r4 & E4 & G4 & R4).
    assert (Fl : server_flight m (reader_new s) (s_sh ss) (s_certs ss) (s_ske ss) r4) by (exists r1, r2, r3; auto).
    split; [|exists r4; split; [exact Fl|]; split; [exact G4|lia]]. split; [exact L|]. split; [exact Cr|]. split; [exists r4; exact Fl|]. split; [exact O1|]. split; [exact O2|]. split; [exact O3|]. exists g'. exact K.
  Qed.
End Flight.

(** ** The second flight *)
Lemma comes_after v pend bs x v' pend' bs' : comes v pend bs x v' pend' bs' -> (fits v -> fits v') /\ number v' + zlen bs' <= number v + zlen bs /\ x <> Diverge /\ (v = Clear -> v' = Clear).
Proof.
  assert (Cl : forall v bs y v' bs', fetch v bs y v' bs' -> v = Clear -> v' = Clear).
  { intros v0 b0 y0 v1 b1 F E. destruct F as [| | |v0 t maj min f b0 pl v1 L O|v0 t maj min f b0 e v1 L O|v0 t maj min f b0 v1 L O]; try exact E; subst v0; inversion O; reflexivity. }
  induction 1 as [v ty body q bs h L H|v ty body q bs e L H|v pend bs e v' bs' N F|v pend bs v' bs' N F|v pend bs t pl v' bs' x N F K|v pend bs v' bs' N F|v pend bs pl v1 bs1 x v' pend' bs' N F Np C IH].
  - split; [tauto|]. split; [lia|]. split; [discriminate|tauto].
  - split; [tauto|]. split; [lia|]. split; [discriminate|tauto].
  - destruct (fetch_shorter _ _ _ _ _ F) as (F1 & F2 & _). split; [exact F1|]. split; [exact F2|]. split; [discriminate|exact (Cl _ _ _ _ _ F)].
  - destruct (fetch_shorter _ _ _ _ _ F) as (F1 & F2 & _). split; [exact F1|]. split; [exact F2|]. split; [discriminate|exact (Cl _ _ _ _ _ F)].
  - destruct (fetch_shorter _ _ _ _ _ F) as (F1 & F2 & _). split; [exact F1|]. split; [exact F2|]. split; [|exact (Cl _ _ _ _ _ F)]. destruct K; discriminate.
  - destruct (fetch_shorter _ _ _ _ _ F) as (F1 & F2 & _). split; [exact F1|]. split; [exact F2|]. split; [discriminate|exact (Cl _ _ _ _ _ F)].
  - destruct (fetch_shorter _ _ _ _ _ F) as (F1 & F2 & _). destruct IH as (I1 & I2 & I3 & I4). split; [auto|]. split; [lia|]. split; [exact I3|]. intros E. apply I4. exact (Cl _ _ _ _ _ F E).
Qed.
Lemma server_fits ss : fits (server_cover ss).
Proof. destruct (key_block_lengths (s_master ss) (s_cr ss) (sh_random (s_sh ss))) as (_ & K2 & _ & K4). split; [exact K2|]. split; [exact K4|lia]. Qed.
Lemma decrypting_guarded m r ss pend bs : guarded m r Clear pend bs -> r_iv r = Some (iv_server (s_keys ss)) -> room r < 2 ^ 64 ->
  guarded m (decrypting m r (s_keys ss)) (server_cover ss) pend bs /\ room (decrypting m r (s_keys ss)) < 2 ^ 64.
Proof.
  intros ((D & K0) & C & B & S) I R. split.
  - split; [|split; [exact C|]; split; [exact B|exact S]]. destruct (server_fits ss) as (L1 & L2 & _). split; [reflexivity|]. split; [exact I|]. split; [reflexivity|]. split; [exact L1|]. split; [exact L2|lia].
  - unfold room in *. cbn [decrypting r_count r_src]. lia.
Qed.
(** the answer awaited after the first flight *)
Inductive answers (ss : session) (pend rest : bytes) : res unit -> Prop :=
| A_ccs x v p b : comes Clear pend rest x v p b -> x <> Ok ChangeCipherSpecMessage -> answers ss pend rest (as_ccs x)
| A_finished p1 b1 x y v p b : comes Clear pend rest (Ok ChangeCipherSpecMessage) Clear p1 b1 -> asks (server_cover ss) p1 b1 x v p b -> turned_away (fun h => exists d, h = finished d) x y -> answers ss pend rest y
| A_verify p1 b1 d v p b : comes Clear pend rest (Ok ChangeCipherSpecMessage) Clear p1 b1 -> asks (server_cover ss) p1 b1 (Ok (finished d)) v p b -> d <> expected_server ss -> answers ss pend rest (Err DecryptError)
| A_done p1 b1 v p b : comes Clear pend rest (Ok ChangeCipherSpecMessage) Clear p1 b1 -> asks (server_cover ss) p1 b1 (Ok (finished (expected_server ss))) v p b -> answers ss pend rest (Ok tt).
Lemma answers_sound m r w g b ss pend rest y : good_session ss -> guarded m r Clear pend rest -> r_iv r = Some (iv_server (s_keys ss)) -> room r < 2 ^ 64 -> answers ss pend rest y ->
  exists r', ph_accept m (s_master ss) (k_server (s_keys ss)) (concat (map e_handshake (s_msgs ss))) (s_client_fin ss) (Client r w g b) = (y, Client r' w g b).
Proof.
  intros Gs G I Rm A. pose proof G as ((D & _) & _). pose proof (accept_cases m r w g b ss Gs D) as Ac. cbv zeta in Ac.
  assert (Next : forall p1 b1, comes Clear pend rest (Ok ChangeCipherSpecMessage) Clear p1 b1 -> exists r1, read_change_cipher_spec m r = (Ok tt, r1) /\ guarded m (decrypting m r1 (s_keys ss)) (server_cover ss) p1 b1 /\ room (decrypting m r1 (s_keys ss)) < 2 ^ 64 /\
      r_dec r1 = None).
  { intros p1 b1 Cm. destruct (ccs_sound m _ _ _ _ _ _ _ Cm _ G Rm) as (r1 & E & G1 & R1). exists r1. split; [exact E|]. destruct (read_ccs_keys _ _ _ _ E) as [D1 I1].
    destruct (decrypting_guarded m r1 ss p1 b1 G1 (eq_trans I1 I) ltac:(lia)) as [G2 R2]. split; [exact G2|]. split; [exact R2|]. rewrite D1; exact D. }
  destruct A as [x v p b0 Cm N|p1 b1 x y v p b0 Cm As T|p1 b1 d v p b0 Cm As N|p1 b1 v p b0 Cm As].
  - destruct (ccs_sound m _ _ _ _ _ _ _ Cm _ G Rm) as (r1 & E & _). exists r1. unfold ph_accept. unfold mbind at 1, on_reader at 1. cbn [c_rng c_reader c_writer c_buf]. rewrite E.
    destruct x as [[]| | |]; try reflexivity. congruence.
  - destruct (Next _ _ Cm) as (r1 & E & G1 & R1 & D1). destruct (asks_sound m _ _ _ _ _ _ _ As _ G1 R1) as (r2 & E2 & _). exists r2.
    unfold ph_accept. unfold mbind at 1, on_reader at 1. cbn [c_rng c_reader c_writer c_buf]. rewrite E. unfold mbind at 1, on_reader at 1, r_set_decryptor. cbn [c_rng c_reader c_writer c_buf]. rewrite D1.
    change (Reader (r_src r1) _ 0 (r_buf r1) (r_iv r1)) with (decrypting m r1 (s_keys ss)).
    destruct (turned_run m pick_finished _ _ w g b _ _ _ picks_finished E2 T) as (z & Ez & Fz & <-). unfold mbind at 1. rewrite Ez. destruct z; try destruct Fz; reflexivity.
  - destruct (Next _ _ Cm) as (r1 & E & G1 & R1 & D1). destruct (asks_sound m _ _ _ _ _ _ _ As _ G1 R1) as (r2 & E2 & _).
    assert (Sa : server_answer m r (s_keys ss) d r2) by (exists r1; auto).
    destruct Ac as [(r3 & An & _)|[(v2 & r3 & An & N2 & Y)|(x & r3 & _ & _ & No)]]; [| |destruct (No _ _ Sa)].
    + exfalso. destruct Sa as (ra & P1 & P2), An as (rb & P3 & P4). rewrite P1 in P3. apply pair_equal_spec in P3 as [_ <-]. rewrite P2 in P4. apply pair_equal_spec in P4 as [X _]. apply Ok_inj in X. injection X as X. congruence.
    + exists r3. exact Y.
  - destruct (Next _ _ Cm) as (r1 & E & G1 & R1 & D1). destruct (asks_sound m _ _ _ _ _ _ _ As _ G1 R1) as (r2 & E2 & _).
    assert (Sa : server_answer m r (s_keys ss) (expected_server ss) r2) by (exists r1; auto).
    destruct Ac as [(r3 & An & Y)|[(v2 & r3 & An & N2 & Y)|(x & r3 & _ & _ & No)]]; [| |destruct (No _ _ Sa)].
    + exists r3. exact Y.
    + exfalso. destruct Sa as (ra & P1 & P2), An as (rb & P3 & P4). rewrite P1 in P3. apply pair_equal_spec in P3 as [_ <-]. rewrite P2 in P4. apply pair_equal_spec in P4 as [X _]. apply Ok_inj in X. injection X as X. congruence.
Qed.

(** ** Construction *)
Lemma building_parts m g bs x st : building m g bs x st <->
  (length g < 32)%nat /\ x = Panic /\ st = Nothing \/
  (32 <= length g)%nat /\ flight_ends m (skipn 32 g) bs x /\ st = Hello (firstn 32 g) \/
  exists ss pend rest, passes m g bs ss pend rest /\ answers ss pend rest x /\ st = Complete ss.
Proof.
  split.
  - intros [L|y L F|ss pend rest x0 v p b P Cm N|ss pend rest p1 b1 x0 y v p b P Cm As T|ss pend rest p1 b1 d v p b P Cm As N|ss pend rest p1 b1 v p b P Cm As].
    + left. auto.
    + right. left. auto.
    + right. right. exists ss, pend, rest. split; [exact P|]. split; [|reflexivity]. eapply A_ccs; eassumption.
    + right. right. exists ss, pend, rest. split; [exact P|]. split; [|reflexivity]. eapply A_finished; eassumption.
    + right. right. exists ss, pend, rest. split; [exact P|]. split; [|reflexivity]. eapply A_verify; eassumption.
    + right. right. exists ss, pend, rest. split; [exact P|]. split; [|reflexivity]. eapply A_done; eassumption.
  - intros [(L & -> & ->)|[(L & F & ->)|(ss & pend & rest & P & A & ->)]].
    + apply B_tape; exact L.
    + apply B_first; assumption.
    + destruct A as [x0 v p b0 Cm N|p1 b1 x0 y v p b0 Cm As T|p1 b1 d v p b0 Cm As N|p1 b1 v p b0 Cm As].
      * eapply B_ccs; eassumption.
      * eapply B_finished; eassumption.
      * eapply B_verify; eassumption.
      * eapply B_done; eassumption.
Qed.
Lemma settle m s p g st x c : ready m st p (c_writer c) -> healthy (writer_new p) -> client_handshake m (client_init s p g) = (x, c) ->
  exists c', client_new m s p g = (x, c') /\ w_out (c_writer c') = all_sent x st.
Proof.
  intros R H E. unfold client_new, or_alert, all_sent. rewrite E. destruct x as [u|e| |].
  - exists c. split; [reflexivity|]. rewrite app_nil_r. apply R.
  - destruct (alert_after m st p c e R H) as (c' & -> & O). exists c'. auto.
  - exists c. split; [reflexivity|]. rewrite app_nil_r. apply R.
  - exists c. split; [reflexivity|]. rewrite app_nil_r. apply R.
Qed.
Lemma stage_once m s g a b : stage_at m s g a -> stage_at m s g b -> a = b.
Proof.
  destruct a as [|cr|ss], b as [|cr'|ss']; cbn [stage_at]; intros A B; try reflexivity; try (exfalso; lia).
  - exfalso. destruct B as [B _]. lia.
  - destruct A as (_ & -> & _), B as (_ & -> & _). reflexivity.
  - exfalso. apply A in B. exact B.
  - exfalso. destruct A as [A _]. lia.
  - exfalso. apply B in A. exact A.
  - rewrite (reached_det _ _ _ _ _ A B). reflexivity.
Qed.
Theorem building_sound m s p g x st : healthy (writer_new p) -> clean s -> zlen (stream s) < 2 ^ 64 -> building m g (stream s) x st ->
  stage_at m s g st /\ exists c, client_new m s p g = (x, c) /\ w_out (c_writer c) = all_sent x st.
Proof.
  intros H C Rm B. apply building_parts in B as [(L & -> & ->)|[(L & F & ->)|(ss & pend & rest & P & A & ->)]].
  - split; [exact L|]. unfold client_new, or_alert. rewrite phases. unfold client_init, mbind at 1.
    destruct (hello_run m (reader_new s) (writer_new p) g [] eq_refl eq_refl) as [[_ X]|(L' & _)]; [rewrite X; eexists; split; reflexivity|lia].
  - assert (Fs : forall w b, exists y r' g', ph_server m (Client (reader_new s) w (skipn 32 g) b) = (y, Client r' w g' b) /\ failed y /\ as_fail y = x) by (intros; apply flight_sound; assumption).
    split.
    + split; [exact L|]. split; [reflexivity|]. intros ss RC. destruct RC as (_ & _ & (r & Fl) & V & Su & Co & (g3 & K)).
      destruct (Fs (writer_new p) []) as (y & r' & g' & E & Fy & _). pose proof (server_ok m _ (writer_new p) _ [] _ _ _ _ _ _ _ Fl (proj2 (check_inv _) (conj V (conj Su Co))) K) as Y. rewrite E in Y.
      apply pair_equal_spec in Y as [-> _]. exact Fy.
    + destruct (handshake_run m s p g H L) as [(w1 & R & y & r' & g' & Fy & E & Eq)|(ss & r & w3 & g' & RC & Fl & R & Eq)].
      * destruct (Fs w1 []) as (y2 & r2 & g2 & E2 & _ & <-). rewrite E in E2. apply pair_equal_spec in E2 as [-> _]. exact (settle m s p g _ _ (Client r' w1 g' []) R H Eq).
      * exfalso. destruct (Fs (writer_new p) []) as (y & r' & g2 & E & Fy & _). destruct RC as (_ & _ & _ & V & Su & Co & (g3 & K)).
        pose proof (server_ok m _ (writer_new p) _ [] _ _ _ _ _ _ _ Fl (proj2 (check_inv _) (conj V (conj Su Co))) K) as Y. rewrite E in Y. apply pair_equal_spec in Y as [-> _]. exact Fy.
  - pose proof P as (L & _). destruct (passes_sound m s C Rm g ss pend rest P) as (RC & r & Fl & G & R). split; [exact RC|].
    destruct (handshake_run m s p g H L) as [(w1 & Rd & y & r' & g' & Fy & E & Eq)|(ss2 & r2 & w3 & g' & RC2 & Fl2 & Rd & Eq)].
    + exfalso. destruct RC as (_ & _ & _ & V & Su & Co & (g3 & K)).
      pose proof (server_ok m _ w1 _ [] _ _ _ _ _ _ _ Fl (proj2 (check_inv _) (conj V (conj Su Co))) K) as Y. rewrite E in Y. apply pair_equal_spec in Y as [-> _]. exact Fy.
    + pose proof (reached_det _ _ _ _ _ RC RC2) as <-. assert (r2 = r) as ->.
      { destruct Fl as (q1 & q2 & q3 & Q1 & Q2 & Q3 & Q4), Fl2 as (t1 & t2 & t3 & T1 & T2 & T3 & T4). congruence. }
      destruct (answers_sound m (ived_reader r (s_keys ss)) w3 g' [] ss pend rest x (session_good _ _ _ _ RC)) as (r' & Ea); [exact G|reflexivity|exact R|exact A|].
      rewrite Ea in Eq. exact (settle m s p g _ _ (Client r' w3 g' []) Rd H Eq).
Qed.

(** ** Every stream is covered *)
Lemma asks_total v pend bs : fits v -> number v + zlen bs < 2 ^ 64 -> exists x v' pend' bs', asks v pend bs x v' pend' bs' /\ x <> Diverge /\ (v = Clear -> v' = Clear) /\ (fits v -> fits v') /\ number v' + zlen bs' <= number v + zlen bs.
Proof.
  intros F N. destruct (comes_total (S (length bs)) v pend bs ltac:(lia) F N) as (x & v' & p & b & Cm). destruct (comes_after _ _ _ _ _ _ _ Cm) as (A1 & A2 & A3 & A4).
  exists (as_handshake x), v', p, b. split; [exists x; auto|]. split; [destruct x as [[]| | |]; try discriminate; congruence|]. auto.
Qed.
Lemma turned_or (P : handshake -> Prop) x : x <> Diverge -> (forall h, P h \/ ~ P h) -> (exists h, x = Ok h /\ P h) \/ exists y, turned_away P x y.
Proof. intros N D. destruct x as [h|e| |]; [destruct (D h) as [Y|Y]; [left; eauto|]| | |congruence]; right; eexists; [apply T_other; exact Y|apply T_error|apply T_panic]. Qed.
Theorem building_total m g bs : zlen bs < 2 ^ 64 -> exists x st, building m g bs x st.
Proof.
  intros Rm. destruct (Nat.ltb_spec (length g) 32) as [L|L]; [eexists _, _; apply B_tape; exact L|].
  assert (Fc : fits Clear) by exact I.
  destruct (asks_total Clear [] bs Fc Rm) as (x1 & v1 & p1 & b1 & A1 & N1 & V1 & _ & M1). specialize (V1 eq_refl). subst v1. cbn [number] in M1.
  destruct (turned_or (fun h => exists sh, h = server_hello_msg sh) x1 N1) as [(h & -> & sh & ->)|(y & T)]; [intros h; destruct h; eauto; right; intros [? X]; discriminate X| |].
  2:{ eexists _, _. apply B_first; [exact L|]. eapply S_hello; eassumption. }
  destruct (check_server_hello sh) as [[]|e| |] eqn:Ck.
  2,3,4: eexists _, _; apply B_first; [exact L|]; eapply S_parameters; [exact A1|]; rewrite offered_check, Ck; discriminate.
  assert (Gr : greeted bs sh p1 b1) by (constructor; [exact A1|apply offered_check; exact Ck]).
  destruct (asks_total Clear p1 b1 Fc ltac:(cbn [number]; lia)) as (x2 & v2 & p2 & b2 & A2 & N2 & V2 & _ & M2). specialize (V2 eq_refl). subst v2. cbn [number] in M2.
  destruct (turned_or (fun h => exists sh, h = certificate sh) x2 N2) as [(h & -> & certs & ->)|(y & T)]; [intros h; destruct h; eauto; right; intros [? X]; discriminate X| |].
  2:{ eexists _, _. apply B_first; [exact L|]. eapply S_certificate; eassumption. }
  assert (Sw : shown bs sh certs p2 b2) by (econstructor; eassumption).
  destruct (asks_total Clear p2 b2 Fc ltac:(cbn [number]; lia)) as (x3 & v3 & p3 & b3 & A3 & N3 & V3 & _ & M3). specialize (V3 eq_refl). subst v3. cbn [number] in M3.
  destruct (turned_or (fun h => exists sh, h = server_key_exchange sh) x3 N3) as [(h & -> & skx & ->)|(y & T)]; [intros h; destruct h; eauto; right; intros [? X]; discriminate X| |].
  2:{ eexists _, _. apply B_first; [exact L|]. eapply S_exchange; eassumption. }
  assert (Gi : given bs sh certs skx p3 b3) by (econstructor; eassumption).
  pose proof (compute_keys_cases m skx (skipn 32 g)) as Kc. destruct (compute_keys m skx (skipn 32 g)) as [[kp|e| |] g'] eqn:K; [| | |destruct Kc].
  2:{ eexists _, _. apply B_first; [exact L|]. eapply S_keys; eassumption. }
  2:{ eexists _, _. apply B_first; [exact L|]. eapply S_crash; eassumption. }
  clear Kc. destruct (asks_total Clear p3 b3 Fc ltac:(cbn [number]; lia)) as (x4 & v4 & p4 & b4 & A4 & N4 & V4 & _ & M4). specialize (V4 eq_refl). subst v4. cbn [number] in M4.
  destruct (turned_or (fun h => h = server_hello_done) x4 N4) as [(h & -> & ->)|(y & T)]; [intros h; destruct h; (left; reflexivity) || (right; intros X; discriminate X)| |].
  2:{ eexists _, _. apply B_first; [exact L|]. eapply S_done; eassumption. }
  destruct kp as [pub pms]. set (ss := Session (firstn 32 g) sh certs skx pub pms).
  assert (P : passes m g bs ss p4 b4) by (split; [exact L|]; split; [reflexivity|]; exists p3, b3, g'; auto).
  destruct (comes_total (S (length b4)) Clear p4 b4 ltac:(lia) Fc ltac:(cbn [number]; lia)) as (x5 & v5 & p5 & b5 & A5). destruct (comes_after _ _ _ _ _ _ _ A5) as (_ & M5 & N5 & V5). specialize (V5 eq_refl). subst v5. cbn [number] in M5.
  assert (Cc : x5 = Ok ChangeCipherSpecMessage \/ x5 <> Ok ChangeCipherSpecMessage) by (destruct x5 as [[]| | |]; (left; reflexivity) || (right; discriminate)). destruct Cc as [->|Nc].
  2:{ eexists _, _. eapply B_ccs; eassumption. }
  destruct (asks_total (server_cover ss) p5 b5 (server_fits ss) ltac:(cbn [number server_cover]; lia)) as (x6 & v6 & p6 & b6 & A6 & N6 & _).
  destruct (turned_or (fun h => exists d, h = finished d) x6 N6) as [(h & -> & d & ->)|(y & T)]; [intros h; destruct h; eauto; right; intros [? X]; discriminate X| |].
  2:{ eexists _, _. eapply B_finished; eassumption. }
  destruct (list_eq_dec Byte.byte_eq_dec d (expected_server ss)) as [->|Nd]; eexists _, _; [eapply B_done; eassumption|eapply B_verify; eassumption].
Qed.
Theorem building_iff m s p g x out : healthy (writer_new p) -> clean s -> zlen (stream s) < 2 ^ 64 ->
  ((exists c, client_new m s p g = (x, c) /\ w_out (c_writer c) = out) <-> exists st, building m g (stream s) x st /\ out = all_sent x st).
Proof.
  intros H C R. split.
  - intros (c & E & <-). destruct (building_total m g (stream s) R) as (y & st & B). destruct (building_sound m s p g y st H C R B) as (_ & c' & E' & O). rewrite E in E'. apply pair_equal_spec in E' as [-> ->]. eauto.
  - intros (st & B & ->). exact (proj2 (building_sound m s p g x st H C R B)).
Qed.
Theorem building_once m g bs x st x' st' : zlen bs < 2 ^ 64 -> building m g bs x st -> building m g bs x' st' -> x = x' /\ st = st'.
Proof.
  intros R A B. pose proof (source_clean bs) as C. pose proof (source_stream bs) as S. assert (Hw : healthy (writer_new [])) by constructor.
  destruct (building_sound m (source bs) [] g x st Hw C ltac:(rewrite S; exact R) ltac:(rewrite S; exact A)) as (S1 & c & E & _).
  destruct (building_sound m (source bs) [] g x' st' Hw C ltac:(rewrite S; exact R) ltac:(rewrite S; exact B)) as (S2 & c' & E' & _).
  split; [|eapply stage_once; eassumption]. rewrite E in E'. apply pair_equal_spec in E' as [-> _]. reflexivity.
Qed.
(** with C89: the streams that connect *)
Theorem building_connects m g bs : zlen bs + 1 < 2 ^ 64 -> ((exists st, building m g bs (Ok tt) st) <-> exists ss n extra rest, connecting m g ss bs n extra rest).
Proof.
  intros R. assert (H : healthy (writer_new [])) by constructor. pose proof (source_clean bs) as C. pose proof (source_stream bs) as S.
  assert (A : zlen (all_bytes (source bs)) + 1 < 2 ^ 64) by (destruct bs as [|b bs]; [reflexivity|unfold all_bytes; cbn [source map concat]; rewrite app_nil_r; exact R]).
  assert (R' : zlen (stream (source bs)) < 2 ^ 64) by (rewrite S; lia).
  pose proof (connecting_iff m (source bs) [] g H A) as K. rewrite S in K. rewrite <- K. split.
  - intros (st & B). rewrite <- S in B. destruct (building_sound m (source bs) [] g _ st H C R' B) as (_ & c & E & _). eauto.
  - intros (c & E). destruct (proj1 (building_iff m (source bs) [] g (Ok tt) (w_out (c_writer c)) H C R')) as (st & B & _); [eauto|]. rewrite S in B. eauto.
Qed.

(** ** What the following bytes do not change *)
Lemma fetch_rest v bs tp v' bs' : fetch v bs (Ok tp) v' bs' -> exists before, bs = before ++ bs' /\ forall b2, fetch v (before ++ b2) (Ok tp) v' b2.
Proof.
  intros F. inversion F; subst. exists (wire t maj min f). split; [reflexivity|]. intros b2. eapply G_record; eassumption.
Qed.
Lemma comes_rest v pend bs x v' pend' bs' : comes v pend bs x v' pend' bs' -> (exists msg, x = Ok msg) -> exists before, bs = before ++ bs' /\ forall b2, comes v pend (before ++ b2) x v' pend' b2.
Proof.
  induction 1 as [v ty body q bs h L H|v ty body q bs e L H|v pend bs e v' bs' N F|v pend bs v' bs' N F|v pend bs t pl v' bs' x N F K|v pend bs v' bs' N F|v pend bs pl v1 bs1 x v' pend' bs' N F Np C IH]; intros Ok1.
  - exists []. split; [reflexivity|]. intros b2. apply N_message; assumption.
  - destruct Ok1; discriminate.
  - destruct Ok1; discriminate.
  - destruct Ok1; discriminate.
  - apply fetch_rest in F as (b & -> & F). exists b. split; [reflexivity|]. intros b2. eapply N_other; [exact N|apply F|exact K].
  - destruct Ok1; discriminate.
  - destruct (IH Ok1) as (b' & -> & C'). apply fetch_rest in F as (b & -> & F). exists (b ++ b'). rewrite <- !app_assoc. split; [reflexivity|]. intros b2. rewrite <- app_assoc. eapply N_more; [exact N|apply F|exact Np|apply C'].
Qed.
Lemma asks_rest v pend bs h v' pend' bs' : asks v pend bs (Ok h) v' pend' bs' -> exists before, bs = before ++ bs' /\ forall b2, asks v pend (before ++ b2) (Ok h) v' pend' b2.
Proof.
  intros (y & C & E). destruct (comes_rest _ _ _ _ _ _ _ C) as (b & -> & C'); [destruct y as [msg| | |]; try discriminate E; eauto|]. exists b. split; [reflexivity|]. intros b2. exists y. auto.
Qed.
(** an accepted first flight is accepted whatever follows *)
Theorem passes_rest m g bs ss pend rest : passes m g bs ss pend rest -> exists before, bs = before ++ rest /\ forall b2, passes m g (before ++ b2) ss pend b2.
Proof.
  intros (L & Cr & p3 & b3 & g' & Gi & K & A). inversion Gi as [sh certs skx p2 b2 p3' b3' Sw A3]; subst. inversion Sw as [sh' certs' p1 b1 p2' b2' Gr A2]; subst. inversion Gr as [sh' p1' b1' A1 O]; subst.
  apply asks_rest in A1 as (c1 & -> & A1). apply asks_rest in A2 as (c2 & -> & A2). apply asks_rest in A3 as (c3 & -> & A3). apply asks_rest in A as (c4 & -> & A).
  exists (c1 ++ c2 ++ c3 ++ c4). rewrite <- !app_assoc. split; [reflexivity|]. intros z. split; [exact L|]. split; [exact Cr|]. exists p3, (c4 ++ z), g'. split; [|split; [exact K|apply A]].
  rewrite <- !app_assoc. econstructor; [econstructor; [econstructor; [apply A1|exact O]|apply A2]|apply A3].
Qed.
(** the kinds of result of the first flight *)
Lemma flight_no_ok m g bs y : flight_ends m g bs y -> y <> Ok tt.
Proof. intros F. destruct F as [x y v p b A T| |sh p1 b1 x y v p b G A T|sh certs p2 b2 x y v p b S A T| | |sh certs skx p3 b3 kp g' x y v p b G K A T]; try discriminate; destruct T; discriminate. Qed.

(** ** Witnesses *)
Lemma odd_len ss q : agreed odd_server (firstn 32 one_tape) Gpt ss -> zlen q = 12 -> zlen (odd_stream ss q) <= 2000.
Proof.
  intros A Lq.
  assert (X : s_sh ss = sv_hello odd_server /\ s_certs ss = [] /\ zlen (s_ske ss) <= 200).
  { destruct A as (sx & sy & cx & cy & zx & zy & _ & _ & _ & ->). cbn [s_cr s_sh s_certs s_ske]. split; [reflexivity|]. split; [reflexivity|].
    unfold e_ske, sp_vec, sec1, zlen. cbn [ske_curve ske_public ske_signed odd_server sv_curve sv_sig]. rewrite !app_length, !be_length. cbn [length]. rewrite app_length, !be_length. vm_compute. discriminate. }
  destruct X as (X2 & X3 & X4).
  assert (P : forall key iv k t maj min n p, zlen p = n -> zlen (aead_seal key (rfc_nonce iv k) (rfc_ad k t maj min n) p) = n + 16).
  { intros key iv k t maj min n p <-. apply (protects_len key iv k t maj min p). reflexivity. }
  assert (W : forall t maj min f, zlen (wire t maj min f) = zlen f + 5) by (intros t maj min f; rewrite <- (app_nil_r (wire t maj min f)), long_wire; change (zlen []) with 0; lia).
  unfold odd_stream, odd_hello. rewrite X2, X3, !zlen_app, !W. rewrite (P _ _ _ _ _ _ 1 [x00] eq_refl), (P _ _ _ _ _ _ 14 (x0c :: q ++ [x63])) by (rewrite zlen_cons, zlen_app, Lq; reflexivity).
  rewrite !zlen_app. replace (zlen (e_handshake (server_key_exchange (s_ske ss)))) with (4 + zlen (s_ske ss)) by (symmetry; apply e_handshake_len).
  set (a := zlen (frame x02 _)). set (b := zlen (e_handshake (certificate []))). assert (a = 46) as -> by (vm_compute; reflexivity). assert (b = 7) as -> by (vm_compute; reflexivity).
  change (zlen [x0e]) with 1. change (zlen [x00; x00; x00]) with 3. change (zlen [x14; x00]) with 2. change (zlen [x01]) with 1. lia.
Qed.
(** a first flight that is accepted, whatever follows *)
Lemma flight_run m : exists ss before pend, incomplete pend /\ forall rest, passes m one_tape (before ++ rest) ss pend rest.
Proof.
  destruct (odd_run m) as (ss & q & A & Q & K).
  assert (Lq : zlen q = 12).
  { pose proof (fin_shape ss) as Fs. rewrite Q in Fs. apply app_inv_head in Fs. subst q. unfold zlen, expected_server. rewrite verify_data_length. reflexivity. }
  pose proof (odd_len ss q A Lq) as L. destruct (proj2 (building_connects m one_tape (odd_stream ss q) ltac:(lia))) as (st & B); [eauto 6|].
  apply building_parts in B as [(_ & X & _)|[(_ & F & _)|(ss' & pend & rest & P & An & _)]]; [discriminate X|destruct (flight_no_ok _ _ _ _ F eq_refl)|].
  apply passes_rest in P as (before & _ & P). exists ss', before, pend. split; [|exact P].
  assert (Cm : exists v p b, comes Clear pend rest (Ok ChangeCipherSpecMessage) v p b).
  { inversion An as [x v p b Cm N E|p1 b1 x y v p b Cm As T|p1 b1 d v p b Cm As N|p1 b1 v p b Cm As]; subst; eauto.
    destruct x as [[]| | |]; try discriminate E; congruence. }
  destruct Cm as (v & p & b & Cm). inversion Cm; subst; assumption.
Qed.
(** and the ways in which the run then ends: nothing follows; an alert instead of the ChangeCipherSpec; after the ChangeCipherSpec
    a record without a tag *)
Lemma ends_run m : exists ss before,
  building m one_tape before (Err IoFailure) (Complete ss) /\
  building m one_tape (before ++ wire AlertTy x03 x03 [x02; x28]) (Err UnexpectedMessage) (Complete ss) /\
  building m one_tape (before ++ wire ChangeCipherSpecTy x03 x03 [x02]) (Err UnexpectedMessage) (Complete ss) /\
  building m one_tape (before ++ wire ChangeCipherSpecTy x03 x03 [x01] ++ wire HandshakeTy x03 x03 []) (Err BadRecordMac) (Complete ss).
Proof.
  destruct (flight_run m) as (ss & before & pend & N & P). exists ss, before.
  assert (F : forall t f, zlen f <= 16384 -> forall bs, fetch Clear (wire t x03 x03 f ++ bs) (Ok (t, f)) Clear bs).
  { intros t f L bs. apply G_record; [lia|]. apply O_clear. exact L. }
  split; [|split; [|split]].
  - pose proof (P []) as P0. rewrite app_nil_r in P0. apply (B_ccs _ _ _ _ _ _ (Err IoFailure) Clear pend [] P0); [|discriminate]. apply N_error; [exact N|]. apply G_end. left. reflexivity.
  - apply (B_ccs _ _ _ _ _ _ (Ok (AlertMessage (Alert AL_fatal AD_handshake_failure))) Clear pend [] (P _)); [|discriminate]. eapply N_other; [exact N| |apply (K_alert AL_fatal AD_handshake_failure [])].
    rewrite <- (app_nil_r (wire _ _ _ _)). apply F. discriminate.
  - apply (B_ccs _ _ _ _ _ _ (Err UnexpectedMessage) Clear pend [] (P _)); [|discriminate]. eapply N_other; [exact N| |apply (K_no_ccs [x02]); discriminate].
    rewrite <- (app_nil_r (wire _ _ _ _)). apply F. discriminate.
  - eapply (B_finished _ _ _ _ _ _ pend (wire HandshakeTy x03 x03 []) (Err BadRecordMac) _ (server_cover ss) pend [] (P _)); [|exists (Err BadRecordMac); split; [|reflexivity]|apply T_error].
    + eapply N_other; [exact N|apply F; discriminate|apply K_ccs].
    + apply N_error; [exact N|]. rewrite <- (app_nil_r (wire _ _ _ _)). eapply G_refused; [discriminate|]. apply O_forged. intros p. apply not_protected.
Qed.
(** at once: nothing; a byte that begins no record; an alert; a HelloRequest; ChangeCipherSpec *)
Lemma early_run m : let cr := firstn 32 one_tape in
  building m one_tape [] (Err IoFailure) (Hello cr) /\ building m one_tape [xff] (Err UnexpectedMessage) (Hello cr) /\
  building m one_tape (wire AlertTy x03 x03 [x02; x28]) (Err AlertReceived) (Hello cr) /\
  building m one_tape (wire HandshakeTy x03 x03 [x00; x00; x00; x00]) (Err UnexpectedMessage) (Hello cr) /\
  building m one_tape (wire HandshakeTy x03 x03 [x00] ++ wire ApplicationDataTy x03 x03 []) (Err UnexpectedMessage) (Hello cr) /\
  building m [] [] Panic Nothing.
Proof.
  intros cr. assert (L : (32 <= length one_tape)%nat) by (vm_compute; lia). pose proof none_nil as N.
  assert (F : forall t f, zlen f <= 16384 -> forall bs, fetch Clear (wire t x03 x03 f ++ bs) (Ok (t, f)) Clear bs).
  { intros t f Lf bs. apply G_record; [lia|]. apply O_clear. exact Lf. }
  assert (F' : forall t f, zlen f <= 16384 -> fetch Clear (wire t x03 x03 f) (Ok (t, f)) Clear []).
  { intros t f Lf. rewrite <- (app_nil_r (wire _ _ _ _)). apply F. exact Lf. }
  assert (X : forall bs y e p b, comes Clear [] bs y Clear p b -> as_handshake y = Err e -> building m one_tape bs (Err e) (Hello cr)).
  { intros bs y e p b Cm E. apply B_first; [exact L|]. eapply S_hello; [exists y; split; [exact Cm|reflexivity]|]. rewrite E. apply T_error. }
  split; [|split; [|split; [|split; [|split]]]].
  - eapply X; [apply N_error; [exact N|]; apply G_end; left; reflexivity|reflexivity].
  - eapply X; [apply N_error; [exact N|]; apply G_type; exact unknown_ff|reflexivity].
  - eapply X; [eapply N_other; [exact N|apply F'; discriminate|apply (K_alert AL_fatal AD_handshake_failure [])]|reflexivity].
  - apply B_first; [exact L|]. eapply S_hello; [|apply (T_other _ hello_request); intros [sh Y]; discriminate Y].
    exists (Ok (HandshakeMessage hello_request)). split; [|reflexivity]. eapply N_more; [exact N|apply F'; discriminate|discriminate|]. apply (N_message Clear x00 [] [] [] hello_request); reflexivity.
  - eapply X; [eapply N_more; [exact N|apply F; discriminate|discriminate|]; eapply N_other; [|apply F'; discriminate|apply K_data]; exists x00, [], [x00; x00; x00]; split; [reflexivity|split; [reflexivity|discriminate]]|reflexivity].
  - apply B_tape. cbn. lia.
Qed.
