(** Proofs about the record reader. *)
From Verif Require Import Spec_Record P_Util P_Codec P_RecordW.

Definition set_src (r : reader) (s : src) : reader := Reader s (r_dec r) (r_count r) (r_buf r) (r_iv r).
Definition set_buf (r : reader) (b : bytes) : reader := Reader (r_src r) (r_dec r) (r_count r) b (r_iv r).
Definition set_count (r : reader) (c : Z) : reader := Reader (r_src r) (r_dec r) c (r_buf r) (r_iv r).

Lemma set_src_id r : set_src r (r_src r) = r. Proof. destruct r; reflexivity. Qed.
Lemma set_buf_id r : set_buf r (r_buf r) = r. Proof. destruct r; reflexivity. Qed.

(** ** Reading from the transport *)
Lemma fill_next s w rest : stream s = w ++ rest ->
  exists s', fill_exact s (length w) = (Ok w, s') /\ stream s' = rest /\ (clean s -> clean s').
Proof.
  intros E. destruct (fill_ok s (length w)) as (s' & F & G); [rewrite E, app_length; lia|].
  rewrite E, firstn_app, firstn_all, Nat.sub_diag, firstn_O, app_nil_r in F.
  rewrite E, skipn_app, skipn_all, Nat.sub_diag in G. exists s'. split; [exact F|]. split; [exact G|].
  intros C. pose proof (fill_clean s (length w) C) as C'. rewrite F in C'. exact C'.
Qed.

Lemma r_read_next r w rest n : stream (r_src r) = w ++ rest -> n = length w ->
  exists s', r_read n r = (Ok w, set_src r s') /\ stream s' = rest /\ (clean (r_src r) -> clean s').
Proof.
  intros E ->. destruct (fill_next _ _ _ E) as (s' & F & G). exists s'. unfold r_read. rewrite F.
  split; [reflexivity|exact G].
Qed.

Lemma src_size_data bs s : src_size (RData bs :: s) = (length bs + src_size s)%nat.
Proof. reflexivity. Qed.
Lemma src_size_err s : src_size (RErr :: s) = src_size s.
Proof. reflexivity. Qed.
Lemma fill_size s : forall n got s', fill_exact s n = (Ok got, s') -> src_size s = (n + src_size s')%nat.
Proof.
  induction s as [|e s IH]; intros n got s'; (destruct n as [|n]; [intros H; inversion H; reflexivity|]); [discriminate|].
  destruct e as [[|b bs]|]; [discriminate| |discriminate]. cbn [fill_exact].
  destruct (Nat.leb_spec (length (b :: bs)) (S n)) as [L|L].
  - destruct (fill_exact s (S n - length (b :: bs))) as [[g| | |] s1] eqn:E; try discriminate.
    intros H. inversion H; subst. apply IH in E. rewrite src_size_data. lia.
  - intros H. inversion H; subst. rewrite !src_size_data.
    rewrite skipn_length. cbn [length] in *. lia.
Qed.
Lemma fill_size_le s : forall n, (src_size (snd (fill_exact s n)) <= src_size s)%nat.
Proof.
  induction s as [|e s IH]; intros n; (destruct n as [|n]; [cbn; lia|]); [cbn; lia|].
  destruct e as [[|b bs]|]; [cbn; lia| |cbn; lia]. cbn [fill_exact].
  destruct (Nat.leb_spec (length (b :: bs)) (S n)) as [L|L].
  - specialize (IH (S n - length (b :: bs))%nat). destruct (fill_exact s (S n - length (b :: bs))) as [[g| | |] s1];
      cbn [snd] in *; rewrite src_size_data; lia.
  - cbn [snd]. rewrite !src_size_data, skipn_length. lia.
Qed.

Definition from_ct (z : Z) : option content_type := from_code content_type_code content_type_all z.
Lemma from_ct_code t : from_ct (rfc_content_type t) = Some t.
Proof. destruct t; reflexivity. Qed.
Lemma from_ct_inv z t : from_ct z = Some t -> z = rfc_content_type t.
Proof.
  unfold from_ct, from_code. intros H. apply find_some in H. destruct H as [_ H].
  apply Z.eqb_eq in H. rewrite <- H. symmetry. rewrite ct_code. reflexivity.
Qed.

(** what happens once header and fragment have been read *)
Definition finish (m : mode) (t : content_type) (maj min : byte) (frag : bytes) : M reader record :=
  do* rec := (fun r => (unprotect t maj min frag r, r)) in
  do* _ := r_bump m in
  mret rec.

Lemma read_record_wire m r t maj min frag rest :
  stream (r_src r) = wire t maj min frag ++ rest -> zlen frag <= ENC_RECORD_MAX_LEN ->
  exists s', stream s' = rest /\ (clean (r_src r) -> clean s') /\
    read_record m r = finish m t maj min frag (set_src r s').
Proof.
  intros E HL. unfold wire in E. cbn [app] in E. rewrite <- ?app_assoc in E.
  unfold read_record.
  destruct (r_read_next r [z2b (rfc_content_type t)] (maj :: min :: be 2 (zlen frag) ++ frag ++ rest) 1) as (s1 & F1 & G1 & C1);
    [exact E|reflexivity|].
  unfold mbind at 1. rewrite F1.
  replace (be_val [z2b (rfc_content_type t)]) with (rfc_content_type t)
    by (unfold be_val; cbn [be_val_acc]; rewrite b2z_z2b, Z.mod_small by apply ct_range; lia).
  change (from_code content_type_code content_type_all (rfc_content_type t)) with (from_ct (rfc_content_type t)).
  rewrite from_ct_code.
  destruct (r_read_next (set_src r s1) [maj] (min :: be 2 (zlen frag) ++ frag ++ rest) 1) as (s2 & F2 & G2 & C2);
    [exact G1|reflexivity|].
  unfold mbind at 1. rewrite F2.
  destruct (r_read_next (set_src r s2) [min] (be 2 (zlen frag) ++ frag ++ rest) 1) as (s3 & F3 & G3 & C3);
    [exact G2|reflexivity|].
  unfold mbind at 1. change (set_src (set_src r s1) s2) with (set_src r s2). rewrite F3.
  destruct (r_read_next (set_src r s3) (be 2 (zlen frag)) (frag ++ rest) 2) as (s4 & F4 & G4 & C4);
    [exact G3|rewrite be_length; reflexivity|].
  unfold mbind at 1. change (set_src (set_src r s2) s3) with (set_src r s3). rewrite F4.
  pose proof (zlen_nonneg frag).
  assert (Hv : be_val (be 2 (zlen frag)) = zlen frag).
  { rewrite be_val_be. apply Z.mod_small. unfold ENC_RECORD_MAX_LEN in HL. change (256 ^ Z.of_nat 2) with 65536. lia. }
  rewrite Hv. replace (ENC_RECORD_MAX_LEN <? zlen frag) with false by (symmetry; apply Z.ltb_ge; exact HL).
  destruct (r_read_next (set_src r s4) frag rest (Z.to_nat (zlen frag))) as (s5 & F5 & G5 & C5);
    [exact G4|unfold zlen; apply Nat2Z.id|].
  unfold mbind at 1. change (set_src (set_src r s3) s4) with (set_src r s4). rewrite F5.
  exists s5. split; [exact G5|]. split; [intros HC; apply C5, C4, C3, C2, C1, HC|]. reflexivity.
Qed.

Lemma read_record_overflow m r t maj min n rest :
  stream (r_src r) = [z2b (rfc_content_type t); maj; min] ++ be 2 n ++ rest ->
  ENC_RECORD_MAX_LEN < n < 65536 ->
  exists s', stream s' = rest /\ read_record m r = (Err RecordOverflow, set_src r s').
Proof.
  intros E HL. cbn [app] in E.
  unfold read_record.
  destruct (r_read_next r [z2b (rfc_content_type t)] (maj :: min :: be 2 n ++ rest) 1) as (s1 & F1 & G1 & C1);
    [exact E|reflexivity|].
  unfold mbind at 1. rewrite F1.
  replace (be_val [z2b (rfc_content_type t)]) with (rfc_content_type t)
    by (unfold be_val; cbn [be_val_acc]; rewrite b2z_z2b, Z.mod_small by apply ct_range; lia).
  change (from_code content_type_code content_type_all (rfc_content_type t)) with (from_ct (rfc_content_type t)).
  rewrite from_ct_code.
  destruct (r_read_next (set_src r s1) [maj] (min :: be 2 n ++ rest) 1) as (s2 & F2 & G2 & C2);
    [exact G1|reflexivity|].
  unfold mbind at 1. rewrite F2.
  destruct (r_read_next (set_src r s2) [min] (be 2 n ++ rest) 1) as (s3 & F3 & G3 & C3);
    [exact G2|reflexivity|].
  unfold mbind at 1. change (set_src (set_src r s1) s2) with (set_src r s2). rewrite F3.
  destruct (r_read_next (set_src r s3) (be 2 n) rest 2) as (s4 & F4 & G4 & C4);
    [exact G3|rewrite be_length; reflexivity|].
  unfold mbind at 1. change (set_src (set_src r s2) s3) with (set_src r s3). rewrite F4.
  assert (Hv : be_val (be 2 n) = n).
  { rewrite be_val_be. apply Z.mod_small. unfold ENC_RECORD_MAX_LEN in HL. change (256 ^ Z.of_nat 2) with 65536. lia. }
  rewrite Hv. replace (ENC_RECORD_MAX_LEN <? n) with true by (symmetry; apply Z.ltb_lt; apply HL).
  exists s4. split; [exact G4|]. reflexivity.
Qed.

Lemma read_record_unknown m r b rest :
  stream (r_src r) = b :: rest -> ~ In (b2z b) [20; 21; 22; 23] ->
  exists s', stream s' = rest /\ read_record m r = (Err UnexpectedMessage, set_src r s').
Proof.
  intros E Hb. unfold read_record.
  destruct (r_read_next r [b] rest 1) as (s1 & F1 & G1 & C1); [exact E|reflexivity|].
  unfold mbind at 1. rewrite F1. exists s1. split; [exact G1|].
  replace (be_val [b]) with (b2z b) by reflexivity.
  change (from_code content_type_code content_type_all (b2z b)) with (from_ct (b2z b)).
  destruct (from_ct (b2z b)) as [t|] eqn:Et; [|reflexivity].
  exfalso. apply Hb. apply from_ct_inv in Et. rewrite Et. destruct t; cbn; auto.
Qed.

(** ** Inversion: a record returned was on the wire *)
Lemma fill_all_bytes s : forall n, exists p, all_bytes s = p ++ all_bytes (snd (fill_exact s n)) /\
  forall got, fst (fill_exact s n) = Ok got -> p = got.
Proof.
  induction s as [|e s IH]; intros n; (destruct n as [|n]; [exists []; split; [reflexivity|intros got H; inversion H; reflexivity]|]).
  - exists []. split; [reflexivity|discriminate].
  - destruct e as [[|b bs]|]; [exists []; split; [reflexivity|discriminate]| |exists []; split; [reflexivity|discriminate]].
    cbn [fill_exact]. destruct (Nat.leb_spec (length (b :: bs)) (S n)) as [L|L].
    + destruct (IH (S n - length (b :: bs))%nat) as (p & Hp & Hg).
      exists ((b :: bs) ++ p).
      change (all_bytes (RData (b :: bs) :: s)) with ((b :: bs) ++ all_bytes s). rewrite Hp.
      destruct (fill_exact s (S n - length (b :: bs))) as [[g| | |] s1]; cbn [fst snd] in *;
        (split; [rewrite <- app_assoc; reflexivity|]); intros got H; inversion H; subst.
      rewrite (Hg g eq_refl). reflexivity.
    + exists (firstn (S n) (b :: bs)). split.
      * change (all_bytes (RData (b :: bs) :: s)) with ((b :: bs) ++ all_bytes s).
        cbn [snd]. change (all_bytes (RData (skipn (S n) (b :: bs)) :: s)) with (skipn (S n) (b :: bs) ++ all_bytes s).
        rewrite app_assoc, firstn_skipn. reflexivity.
      * intros got H. inversion H. reflexivity.
Qed.

Lemma r_read_inv r n x r' : r_read n r = (x, r') ->
  r' = set_src r (r_src r') /\
  (exists p, all_bytes (r_src r) = p ++ all_bytes (r_src r') /\ (forall got, x = Ok got -> p = got)) /\
  (src_size (r_src r') <= src_size (r_src r))%nat /\
  (forall got, x = Ok got -> length got = n /\ src_size (r_src r) = (n + src_size (r_src r'))%nat) /\
  (x = Err IoFailure \/ exists got, x = Ok got).
Proof.
  unfold r_read. destruct (fill_exact (r_src r) n) as [y s] eqn:E. intros H. inversion H; subst x r'. cbn [r_src].
  split; [reflexivity|]. split.
  { destruct (fill_all_bytes (r_src r) n) as (p & Hp & Hg). rewrite E in *. exists p. auto. }
  split; [pose proof (fill_size_le (r_src r) n) as L; rewrite E in L; exact L|].
  split.
  - intros got ->. split; [eapply fill_never_short; eassumption|eapply fill_size; eassumption].
  - destruct (fill_total (r_src r) n) as [[got Hg]|Hg]; rewrite E in Hg; cbn in Hg; eauto.
Qed.

(** the state after a failed or successful header differs only in the transport *)
Definition only_src (r r' : reader) : Prop := r' = set_src r (r_src r') /\
  (src_size (r_src r') <= src_size (r_src r))%nat /\ exists p, all_bytes (r_src r) = p ++ all_bytes (r_src r').
Lemma only_src_refl r : only_src r r.
Proof. split; [symmetry; apply set_src_id|]. split; [lia|]. exists []. reflexivity. Qed.
Lemma only_src_trans a b c : only_src a b -> only_src b c -> only_src a c.
Proof.
  intros (H1 & L1 & p & P1) (H2 & L2 & q & Q1). split; [rewrite H2, H1; reflexivity|]. split; [lia|].
  exists (p ++ q). rewrite P1, Q1, app_assoc. reflexivity.
Qed.

Lemma byte_list1 (l : bytes) : length l = 1%nat -> l = [hd x00 l].
Proof. destruct l as [|b [|]]; try discriminate. reflexivity. Qed.

Lemma be_val_1 (b : byte) : be_val [b] = b2z b.
Proof. reflexivity. Qed.

Lemma read_record_cases m r :
  (exists k r', read_record m r = (Err k, r') /\ only_src r r') \/
  (exists t maj min frag r1, read_record m r = finish m t maj min frag r1 /\ r1 = set_src r (r_src r1) /\
     zlen frag <= ENC_RECORD_MAX_LEN /\
     all_bytes (r_src r) = wire t maj min frag ++ all_bytes (r_src r1) /\
     src_size (r_src r) = (5 + length frag + src_size (r_src r1))%nat).
Proof.
  destruct (read_record m r) as [x0 r0] eqn:HX. unfold read_record in HX.
  destruct (r_read 1 r) as [x1 r1] eqn:E1. pose proof (r_read_inv _ _ _ _ E1) as (S1 & (p1 & P1 & G1) & L1 & N1 & T1).
  assert (O1 : only_src r r1) by (split; [exact S1|split; [exact L1|exists p1; exact P1]]).
  unfold mbind at 1 in HX. rewrite E1 in HX. destruct T1 as [->|[g1 ->]]; [left; exists IoFailure, r1; split; [rewrite <- HX; reflexivity|exact O1]|].
  destruct (N1 g1 eq_refl) as [Hg1 Z1]. specialize (G1 g1 eq_refl). subst p1.
  change (from_code content_type_code content_type_all (be_val g1)) with (from_ct (be_val g1)) in HX.
  destruct (from_ct (be_val g1)) as [t|] eqn:Et; [|left; exists UnexpectedMessage, r1; split; [rewrite <- HX; reflexivity|exact O1]].
  apply from_ct_inv in Et.
  destruct (r_read 1 r1) as [x2 r2] eqn:E2. pose proof (r_read_inv _ _ _ _ E2) as (S2 & (p2 & P2 & G2) & L2 & N2 & T2).
  assert (O2 : only_src r r2) by (eapply only_src_trans; [exact O1|]; split; [exact S2|split; [exact L2|exists p2; exact P2]]).
  unfold mbind at 1 in HX. rewrite E2 in HX. destruct T2 as [->|[g2 ->]]; [left; exists IoFailure, r2; split; [rewrite <- HX; reflexivity|exact O2]|].
  destruct (N2 g2 eq_refl) as [Hg2 Z2]. specialize (G2 g2 eq_refl). subst p2.
  destruct (r_read 1 r2) as [x3 r3] eqn:E3. pose proof (r_read_inv _ _ _ _ E3) as (S3 & (p3 & P3 & G3) & L3 & N3 & T3).
  assert (O3 : only_src r r3) by (eapply only_src_trans; [exact O2|]; split; [exact S3|split; [exact L3|exists p3; exact P3]]).
  unfold mbind at 1 in HX. rewrite E3 in HX. destruct T3 as [->|[g3 ->]]; [left; exists IoFailure, r3; split; [rewrite <- HX; reflexivity|exact O3]|].
  destruct (N3 g3 eq_refl) as [Hg3 Z3]. specialize (G3 g3 eq_refl). subst p3.
  destruct (r_read 2 r3) as [x4 r4] eqn:E4. pose proof (r_read_inv _ _ _ _ E4) as (S4 & (p4 & P4 & G4) & L4 & N4 & T4).
  assert (O4 : only_src r r4) by (eapply only_src_trans; [exact O3|]; split; [exact S4|split; [exact L4|exists p4; exact P4]]).
  unfold mbind at 1 in HX. rewrite E4 in HX. destruct T4 as [->|[g4 ->]]; [left; exists IoFailure, r4; split; [rewrite <- HX; reflexivity|exact O4]|].
  destruct (N4 g4 eq_refl) as [Hg4 Z4]. specialize (G4 g4 eq_refl). subst p4.
  destruct (ENC_RECORD_MAX_LEN <? be_val g4) eqn:EL; [left; exists RecordOverflow, r4; split; [rewrite <- HX; reflexivity|exact O4]|].
  apply Z.ltb_ge in EL.
  destruct (r_read (Z.to_nat (be_val g4)) r4) as [x5 r5] eqn:E5. pose proof (r_read_inv _ _ _ _ E5) as (S5 & (p5 & P5 & G5) & L5 & N5 & T5).
  assert (O5 : only_src r r5) by (eapply only_src_trans; [exact O4|]; split; [exact S5|split; [exact L5|exists p5; exact P5]]).
  unfold mbind at 1 in HX. rewrite E5 in HX. destruct T5 as [->|[g5 ->]]; [left; exists IoFailure, r5; split; [rewrite <- HX; reflexivity|exact O5]|].
  destruct (N5 g5 eq_refl) as [Hg5 Z5]. specialize (G5 g5 eq_refl). subst p5.
  right. exists t, (hd x00 g2), (hd x00 g3), g5, r5. split; [rewrite <- HX; reflexivity|]. split; [apply O5|].
  pose proof (be_val_range g4) as R4.
  assert (Hlen : zlen g5 = be_val g4) by (unfold zlen; rewrite Hg5; lia).
  split; [lia|]. split.
  - rewrite P1, P2, P3, P4, P5. unfold wire. rewrite Hlen.
    replace (be 2 (be_val g4)) with g4 by (rewrite <- Hg4; symmetry; apply be_be_val).
    rewrite (byte_list1 g2 Hg2) at 1. rewrite (byte_list1 g3 Hg3) at 1.
    rewrite (byte_list1 g1 Hg1) in Et |- *. rewrite be_val_1 in Et. rewrite <- Et, z2b_b2z.
    cbn [app hd]. rewrite <- !app_assoc. reflexivity.
  - lia.
Qed.

Lemma finish_cases m t maj min frag r :
  (exists f, unprotect t maj min frag r = Ok (Rec t maj min f) /\ zlen f <= RECORD_MAX_LEN /\
     ((exists c, ck m 64 (r_count r + 1) = Ok c /\ finish m t maj min frag r = (Ok (Rec t maj min f), set_count r c)) \/
      (ck m 64 (r_count r + 1) = Panic /\ finish m t maj min frag r = (Panic, r)))) \/
  (exists k, unprotect t maj min frag r = Err k /\ finish m t maj min frag r = (Err k, r)) \/
  (unprotect t maj min frag r = Panic /\ finish m t maj min frag r = (Panic, r)) \/
  (unprotect t maj min frag r = Diverge /\ finish m t maj min frag r = (Diverge, r)).
Proof.
  assert (Hu : forall x, unprotect t maj min frag r = Ok x -> exists f, x = Rec t maj min f /\ zlen f <= RECORD_MAX_LEN).
  { intros x. unfold unprotect, record_new. destruct (r_dec r) as [d|].
    - destruct (zlen frag <? dc_mac_len d); [discriminate|].
      destruct (dc_decrypt d _ _ _) as [f| | |]; cbn [rbind]; try discriminate.
      destruct (RECORD_MAX_LEN <? zlen f) eqn:E; [discriminate|]. apply Z.ltb_ge in E.
      intros H. inversion H. eauto.
    - destruct (RECORD_MAX_LEN <? zlen frag) eqn:E; [discriminate|]. apply Z.ltb_ge in E.
      intros H. inversion H. eauto. }
  unfold finish, mbind. destruct (unprotect t maj min frag r) as [x|k| |] eqn:E.
  - left. destruct (Hu x eq_refl) as (f & -> & Hf). exists f. split; [reflexivity|]. split; [exact Hf|].
    unfold r_bump. destruct (ck m 64 (r_count r + 1)) as [c|k| |] eqn:Ec.
    + left. exists c. split; [reflexivity|]. reflexivity.
    + exfalso. unfold ck in Ec. destruct (_ && _); [discriminate|destruct m; discriminate].
    + right. auto.
    + exfalso. unfold ck in Ec. destruct (_ && _); [discriminate|destruct m; discriminate].
  - right. left. eauto.
  - right. right. left. auto.
  - right. right. right. auto.
Qed.

(** a record that was delivered *)
Lemma read_record_inv m r rec r' : read_record m r = (Ok rec, r') ->
  exists t maj min frag f c,
    rec = Rec t maj min f /\ zlen f <= RECORD_MAX_LEN /\ zlen frag <= ENC_RECORD_MAX_LEN /\
    all_bytes (r_src r) = wire t maj min frag ++ all_bytes (r_src r') /\
    src_size (r_src r) = (5 + length frag + src_size (r_src r'))%nat /\
    unprotect t maj min frag r = Ok rec /\ ck m 64 (r_count r + 1) = Ok c /\
    r' = set_count (set_src r (r_src r')) c.
Proof.
  intros H. destruct (read_record_cases m r) as [(k & r1 & E & _)|(t & maj & min & frag & r1 & E & S & L & A & Z)];
    [congruence|].
  rewrite H in E.
  assert (Hun : unprotect t maj min frag r1 = unprotect t maj min frag r) by (rewrite S; reflexivity).
  assert (Hct : r_count r1 = r_count r) by (rewrite S; reflexivity).
  destruct (finish_cases m t maj min frag r1) as [(f & U & Lf & [(c & Ec & F)|(Ec & F)])|[(k & U & F)|[(U & F)|(U & F)]]];
    rewrite F in E; try discriminate. inversion E; subst rec r'.
  exists t, maj, min, frag, f, c. rewrite Hct in Ec. rewrite Hun in U. cbn [set_count r_src].
  split; [reflexivity|]. split; [exact Lf|]. split; [exact L|]. split; [exact A|]. split; [exact Z|]. split; [exact U|].
  split; [exact Ec|]. rewrite S at 1. reflexivity.
Qed.

(** a failed read leaves everything but the transport alone *)
Lemma read_record_fail m r x r' : read_record m r = (x, r') -> (forall rec, x <> Ok rec) -> only_src r r'.
Proof.
  intros H Hx. destruct (read_record_cases m r) as [(k & r1 & E & O)|(t & maj & min & frag & r1 & E & S & L & A & Z)].
  - rewrite E in H. inversion H; subst. exact O.
  - assert (O : only_src r r1) by (split; [exact S|split; [lia|eexists; exact A]]).
    rewrite E in H.
    destruct (finish_cases m t maj min frag r1) as [(f & U & Lf & [(c & Ec & F)|(Ec & F)])|[(k & U & F)|[(U & F)|(U & F)]]];
      rewrite F in H; inversion H; subst; try exact O. exfalso. eapply Hx. reflexivity.
Qed.

(** ** The loop of [read_message] *)
Lemma handle_src rec r x r' : handle_record rec r = (x, r') ->
  r_src r' = r_src r /\ r_dec r' = r_dec r /\ r_count r' = r_count r /\ r_iv r' = r_iv r.
Proof.
  unfold handle_record. destruct (rc_type rec).
  - destruct (rc_fragment rec) as [|b [|]]; [| |]; try destruct (b2z b =? 1); intros H; inversion H; subst; auto.
  - destruct (rc_fragment rec) as [|l [|d ?]];
      [| |destruct (from_code alert_level_code alert_level_all (b2z l)), (from_code alert_desc_code alert_desc_all (b2z d))];
      intros H; inversion H; subst; auto.
  - destruct (rc_fragment rec) as [|b f]; [intros H; inversion H; subst; auto|].
    unfold mbind, r_add_record, r_get_message, mret. cbn [r_buf].
    destruct (get_message _) as [[o| | |] b'] eqn:E; intros H; inversion H; subst; auto.
  - intros H; inversion H; subst; auto.
Qed.

Lemma handle_value rec r : is_value (fst (handle_record rec r)).
Proof.
  unfold handle_record. destruct (rc_type rec).
  - destruct (rc_fragment rec) as [|b [|]]; [| |]; try destruct (b2z b =? 1); exact I.
  - destruct (rc_fragment rec) as [|l [|d ?]];
      [| |destruct (from_code alert_level_code alert_level_all (b2z l)), (from_code alert_desc_code alert_desc_all (b2z d))];
      exact I.
  - destruct (rc_fragment rec) as [|b f]; [exact I|].
    unfold mbind, r_add_record, r_get_message, mret. cbn [r_buf].
    pose proof (get_message_value (add_record (r_buf r) (b :: f))) as V.
    destruct (get_message _) as [[o| | |] b']; exact V.
  - exact I.
Qed.

Lemma loop_fuel m : forall f1 f2 r, (src_size (r_src r) < f1)%nat -> (src_size (r_src r) < f2)%nat ->
  read_message_loop m f1 r = read_message_loop m f2 r.
Proof.
  induction f1 as [|f1 IH]; intros f2 r H1 H2; [lia|]. destruct f2 as [|f2]; [lia|].
  cbn [read_message_loop]. unfold mbind.
  destruct (read_record m r) as [[rec| | |] r1] eqn:E; try reflexivity.
  destruct (handle_record rec r1) as [[[msg|]| | |] r2] eqn:E2; try reflexivity.
  apply read_record_inv in E as (t & maj & min & frag & f & c & _ & _ & _ & _ & Z & _).
  destruct (handle_src _ _ _ _ E2) as (S & _). apply IH; rewrite S; lia.
Qed.

(** [read_message] after the buffer has been found to hold no complete message *)
Definition pull (m : mode) : M reader message := fun r => read_message_loop m (S (src_size (r_src r))) r.
Lemma pull_eq m r : pull m r =
  (do* rec := read_record m in
   do* o := handle_record rec in
   match o with Some msg => mret msg | None => pull m end) r.
Proof.
  unfold pull at 1. cbn [read_message_loop]. unfold mbind.
  destruct (read_record m r) as [[rec| | |] r1] eqn:E; try reflexivity.
  destruct (handle_record rec r1) as [[[msg|]| | |] r2] eqn:E2; try reflexivity.
  apply read_record_inv in E as (t & maj & min & frag & f & c & _ & _ & _ & _ & Z & _).
  destruct (handle_src _ _ _ _ E2) as (S & _). apply loop_fuel; rewrite S; lia.
Qed.
Lemma read_message_eq m r : read_message m r =
  match get_message (r_buf r) with
  | (Ok (Some h), b) => (Ok (HandshakeMessage h), set_buf r b)
  | (Ok None, b) => pull m (set_buf r b)
  | (Err k, b) => (Err k, set_buf r b)
  | (Panic, b) => (Panic, set_buf r b)
  | (Diverge, b) => (Diverge, set_buf r b)
  end.
Proof.
  unfold read_message, mbind, r_get_message. destruct (get_message (r_buf r)) as [[[h|]| | |] b]; reflexivity.
Qed.

(** induction on what the transport still holds *)
Lemma pull_ind (m : mode) (P : reader -> Prop) :
  (forall r, (forall rec r1 r2, read_record m r = (Ok rec, r1) -> handle_record rec r1 = (Ok None, r2) -> P r2) -> P r) ->
  forall r, P r.
Proof.
  intros H r. remember (src_size (r_src r)) as n eqn:En. revert r En.
  induction n as [n IH] using lt_wf_ind. intros r ->. apply H. intros rec r1 r2 E E2.
  eapply IH; [|reflexivity].
  apply read_record_inv in E as (t & maj & min & frag & f & c & _ & _ & _ & _ & Z & _).
  destruct (handle_src _ _ _ _ E2) as (S & _). rewrite S. lia.
Qed.

(** ** Termination *)
Definition terminates (o : option decryptor) : Prop :=
  match o with None => True | Some d => forall n c a, dc_decrypt d n c a <> Diverge end.
Lemma read_record_terminates m r x r' : terminates (r_dec r) -> read_record m r = (x, r') -> x <> Diverge.
Proof.
  intros Ht E. destruct (read_record_cases m r) as [(k & r1 & E1 & _)|(t & maj & min & frag & r1 & E1 & S & _)].
  - rewrite E1 in E. inversion E. discriminate.
  - rewrite E1 in E. destruct (finish_cases m t maj min frag r1) as [(f & U & Lf & [(c & Ec & F)|(Ec & F)])|[(k & U & F)|[(U & F)|(U & F)]]];
      rewrite F in E; apply (f_equal fst) in E; cbn [fst] in E; subst x; try discriminate. exfalso.
    assert (Hd : r_dec r1 = r_dec r) by (rewrite S; reflexivity).
    unfold unprotect, record_new in U. rewrite Hd in U. destruct (r_dec r) as [d|].
    + destruct (zlen frag <? dc_mac_len d); [discriminate|].
      match type of U with context [dc_decrypt d ?n ?c ?a] => specialize (Ht n c a); destruct (dc_decrypt d n c a) as [pl| | |] end;
        cbn [rbind] in U; try discriminate; try congruence.
      destruct (RECORD_MAX_LEN <? zlen pl); discriminate.
    + destruct (RECORD_MAX_LEN <? zlen frag); discriminate.
Qed.

Lemma read_record_dec m r x r' : read_record m r = (x, r') -> r_dec r' = r_dec r /\ r_iv r' = r_iv r.
Proof.
  intros E. destruct x as [rec| | |].
  - apply read_record_inv in E as (t & maj & min & frag & f & c & _ & _ & _ & _ & _ & _ & _ & E). rewrite E. auto.
  - apply read_record_fail in E; [|discriminate]. destruct E as [E _]. rewrite E. auto.
  - apply read_record_fail in E; [|discriminate]. destruct E as [E _]. rewrite E. auto.
  - apply read_record_fail in E; [|discriminate]. destruct E as [E _]. rewrite E. auto.
Qed.

Lemma pull_terminates m : forall r, terminates (r_dec r) -> fst (pull m r) <> Diverge.
Proof.
  apply (pull_ind m (fun r => terminates (r_dec r) -> fst (pull m r) <> Diverge)). intros r IH Ht.
  rewrite pull_eq. unfold mbind. destruct (read_record m r) as [x r1] eqn:E.
  pose proof (read_record_terminates m r x r1 Ht E) as Hx. destruct (read_record_dec m r x r1 E) as [Hd _].
  destruct x as [rec| | |]; try discriminate; [|congruence].
  destruct (handle_record rec r1) as [y r2] eqn:E2. pose proof (handle_value rec r1) as V. rewrite E2 in V. cbn in V.
  destruct (handle_src _ _ _ _ E2) as (_ & Hd2 & _).
  destruct y as [[msg|]| | |]; try discriminate; try contradiction.
  eapply IH; eauto. rewrite Hd2, Hd. exact Ht.
Qed.
Lemma read_message_terminates m r : terminates (r_dec r) -> fst (read_message m r) <> Diverge.
Proof.
  intros Ht. rewrite read_message_eq. pose proof (get_message_value (r_buf r)) as V.
  destruct (get_message (r_buf r)) as [[[h|]| | |] b]; cbn in V; try discriminate; try contradiction.
  apply pull_terminates. exact Ht.
Qed.

(** ** [read_record] ignores the handshake buffer *)
Lemma unprotect_buf t maj min f r b : unprotect t maj min f (set_buf r b) = unprotect t maj min f r.
Proof. reflexivity. Qed.
Lemma r_read_buf n r b : r_read n (set_buf r b) = (fst (r_read n r), set_buf (snd (r_read n r)) b).
Proof. unfold r_read. cbn [r_src set_buf]. destruct (fill_exact (r_src r) n). reflexivity. Qed.

Definition buf_blind {A} (x : M reader A) : Prop :=
  forall r b, x (set_buf r b) = (fst (x r), set_buf (snd (x r)) b).
Lemma blind_bind {A B} (x : M reader A) (f : A -> M reader B) :
  buf_blind x -> (forall a, buf_blind (f a)) -> buf_blind (mbind x f).
Proof.
  intros Hx Hf r b. unfold mbind. rewrite Hx. destruct (x r) as [[a| | |] r1]; cbn [fst snd]; try reflexivity.
  apply Hf.
Qed.
Lemma blind_fail {A} (x : res A) : buf_blind (mfail x).
Proof. intros r b. reflexivity. Qed.
Lemma blind_bump m : buf_blind (r_bump m).
Proof. intros r b. unfold r_bump. cbn [r_count set_buf]. destruct (ck m 64 (r_count r + 1)); reflexivity. Qed.
Lemma read_record_blind m : buf_blind (read_record m).
Proof.
  unfold read_record. apply blind_bind; [exact (fun r b => r_read_buf 1 r b)|]. intros ty.
  destruct (from_code _ _ _); [|apply blind_fail].
  apply blind_bind; [exact (fun r b => r_read_buf 1 r b)|]. intros maj.
  apply blind_bind; [exact (fun r b => r_read_buf 1 r b)|]. intros min.
  apply blind_bind; [exact (fun r b => r_read_buf 2 r b)|]. intros len.
  destruct (ENC_RECORD_MAX_LEN <? be_val len); [apply blind_fail|].
  apply blind_bind; [exact (fun r b => r_read_buf _ r b)|]. intros frag.
  apply blind_bind; [intros r b; reflexivity|]. intros rec.
  apply blind_bind; [apply blind_bump|]. intros _. intros r b. reflexivity.
Qed.

(** ** The records a reader is about to see *)
Inductive yields (m : mode) : reader -> list record -> reader -> Prop :=
| Y_nil r : yields m r [] r
| Y_cons r rec r1 recs r2 : read_record m r = (Ok rec, r1) -> yields m r1 recs r2 -> yields m r (rec :: recs) r2.

Lemma yields_buf m r recs r' b : yields m r recs r' -> yields m (set_buf r b) recs (set_buf r' b).
Proof.
  induction 1 as [r|r rec r1 recs r2 E Y IH]; [constructor|]. econstructor; [|exact IH].
  rewrite read_record_blind, E. reflexivity.
Qed.
Lemma yields_app m r a r1 b r2 : yields m r a r1 -> yields m r1 b r2 -> yields m r (a ++ b) r2.
Proof. induction 1; cbn; [auto|]. intros Y. econstructor; eauto. Qed.
Lemma yields_same_buf m r recs r' : yields m r recs r' -> r_buf r' = r_buf r.
Proof.
  induction 1 as [|r rec r1 recs r2 E Y IH]; [reflexivity|]. rewrite IH.
  apply read_record_inv in E as (t & maj & min & frag & f & c & _ & _ & _ & _ & _ & _ & _ & E'). rewrite E'. reflexivity.
Qed.

(** ** Reassembly *)
Definition hs_rec (maj min : byte) (f : bytes) : record := Rec HandshakeTy maj min f.

Lemma handle_hs maj min f r : f <> [] -> handle_record (hs_rec maj min f) r =
  match get_message (r_buf r ++ f) with
  | (Ok o, b) => (Ok (option_map HandshakeMessage o), set_buf r b)
  | (Err k, b) => (Err k, set_buf r b)
  | (Panic, b) => (Panic, set_buf r b)
  | (Diverge, b) => (Diverge, set_buf r b)
  end.
Proof.
  intros Hf. unfold handle_record, hs_rec. cbn [rc_type rc_fragment]. destruct f as [|y f]; [contradiction|].
  unfold mbind, r_add_record, r_get_message, mret, add_record. cbn [r_buf].
  destruct (get_message (r_buf r ++ y :: f)) as [[o| | |] b]; reflexivity.
Qed.

Lemma app_split_at {A} (a b x y : list A) : a ++ b = x ++ y -> (length a < length x)%nat ->
  exists q, q <> [] /\ x = a ++ q /\ b = q ++ y.
Proof.
  revert x. induction a as [|h a IH]; intros x E L.
  - exists x. cbn in E. split; [destruct x; [cbn in L; lia|discriminate]|]. auto.
  - destruct x as [|h' x]; [cbn in L; lia|]. cbn in E. inversion E; subst h'.
    destruct (IH x H1) as (q & Q1 & Q2 & Q3); [cbn in L; lia|]. exists q. subst. auto.
Qed.
Lemma app_split_ge {A} (a b x y : list A) : a ++ b = x ++ y -> (length x <= length a)%nat ->
  exists q, a = x ++ q /\ y = q ++ b.
Proof.
  revert a. induction x as [|h x IH]; intros a E L.
  - exists a. cbn in E. auto.
  - destruct a as [|h' a]; [cbn in L; lia|]. cbn in E. inversion E; subst h'.
    destruct (IH a H1) as (q & Q1 & Q2); [cbn in L; lia|]. exists q. subst. auto.
Qed.

Lemma pull_handshake m maj min h y : wf_handshake h -> forall fs r r' b,
  Forall (fun f => f <> []) fs -> r_buf r = b -> (length b < length (e_handshake h))%nat ->
  b ++ concat fs = e_handshake h ++ y -> yields m r (map (hs_rec maj min) fs) r' ->
  exists fs2 r1 b1, pull m r = (Ok (HandshakeMessage h), set_buf r1 b1) /\
    yields m r1 (map (hs_rec maj min) fs2) r' /\ Forall (fun f => f <> []) fs2 /\ b1 ++ concat fs2 = y.
Proof.
  intros W. induction fs as [|f fs IH]; intros r r' b Hne Hb Hl E Y.
  - cbn [map concat] in E. rewrite app_nil_r in E. exfalso. apply (f_equal (@length byte)) in E. rewrite app_length in E. lia.
  - inversion Y as [|? ? r1 ? ? Er Y1]; subst. inversion Hne as [|? ? Hf Hne1]; subst.
    assert (Hbuf : r_buf r1 = r_buf r).
    { apply (yields_same_buf m r [hs_rec maj min f]). econstructor; [exact Er|constructor]. }
    rewrite pull_eq. unfold mbind at 1. rewrite Er. unfold mbind at 1. rewrite handle_hs, Hbuf by exact Hf.
    cbn [concat] in E. rewrite app_assoc in E.
    destruct (Nat.ltb_spec (length (r_buf r ++ f)) (length (e_handshake h))) as [L|L].
    + destruct (app_split_at _ _ _ _ E L) as (q & Q1 & Q2 & Q3).
      rewrite (get_message_prefix h _ q W Q2 Q1). cbn [option_map].
      destruct (IH (set_buf r1 (r_buf r ++ f)) (set_buf r' (r_buf r ++ f)) (r_buf r ++ f) Hne1 eq_refl L E) as (fs2 & r2 & b2 & P & Y2 & N2 & E2);
        [apply yields_buf; exact Y1|].
      exists fs2, (set_buf r2 (r_buf r')), b2. split; [rewrite P; reflexivity|].
      split; [|auto]. replace r' with (set_buf (set_buf r' (r_buf r ++ f)) (r_buf r')) by (destruct r'; reflexivity).
      apply yields_buf. exact Y2.
    + destruct (app_split_ge _ _ _ _ E L) as (q & Q1 & Q2). rewrite Q1, get_message_enc by exact W. cbn [option_map].
      exists fs, r1, q. auto.
Qed.

Lemma read_message_handshake m maj min h y fs r r' b : wf_handshake h ->
  Forall (fun f => f <> []) fs -> r_buf r = b -> b ++ concat fs = e_handshake h ++ y ->
  yields m r (map (hs_rec maj min) fs) r' ->
  exists fs2 r1 b1, read_message m r = (Ok (HandshakeMessage h), set_buf r1 b1) /\
    yields m r1 (map (hs_rec maj min) fs2) r' /\ Forall (fun f => f <> []) fs2 /\ b1 ++ concat fs2 = y.
Proof.
  intros W Hne Hb E Y. rewrite read_message_eq. subst b.
  destruct (Nat.ltb_spec (length (r_buf r)) (length (e_handshake h))) as [L|L].
  - destruct (app_split_at _ _ _ _ E L) as (q & Q1 & Q2 & Q3).
    rewrite (get_message_prefix h _ q W Q2 Q1), set_buf_id.
    eapply pull_handshake; eauto.
  - destruct (app_split_ge _ _ _ _ E L) as (q & Q1 & Q2). rewrite Q1, get_message_enc by exact W.
    exists fs, r, q. auto.
Qed.

Lemma reassembly m maj min hs : Forall wf_handshake hs -> forall fs r r' b,
  Forall (fun f => f <> []) fs -> r_buf r = b -> b ++ concat fs = concat (map e_handshake hs) ->
  yields m r (map (hs_rec maj min) fs) r' ->
  exists fs2 r1 b1, reads (read_message m) (length hs) r = (map Ok (map HandshakeMessage hs), set_buf r1 b1) /\
    yields m r1 (map (hs_rec maj min) fs2) r' /\ Forall (fun f => f <> []) fs2 /\ b1 ++ concat fs2 = [].
Proof.
  induction 1 as [|h hs W Ws IH]; intros fs r r' b Hne Hb E Y.
  - cbn in *. exists fs, r, b. subst b. rewrite set_buf_id. auto.
  - cbn [map concat] in E. destruct (read_message_handshake m maj min h _ fs r r' b W Hne Hb E Y) as (fs1 & r1 & b1 & R & Y1 & N1 & E1).
    destruct (IH fs1 (set_buf r1 b1) (set_buf r' b1) b1 N1 eq_refl E1) as (fs2 & r2 & b2 & R2 & Y2 & N2 & E2);
      [apply yields_buf; exact Y1|].
    cbn [length reads map]. rewrite R, R2. exists fs2, (set_buf r2 (r_buf r')), b2. split; [reflexivity|].
    split; [|auto]. replace r' with (set_buf (set_buf r' b1) (r_buf r')) by (destruct r'; reflexivity).
    apply yields_buf. exact Y2.
Qed.

(** all records are consumed and the buffer is empty again *)
Lemma reassembly_all m maj min hs fs r r' : Forall wf_handshake hs -> Forall (fun f => f <> []) fs -> r_buf r = [] ->
  concat fs = concat (map e_handshake hs) -> yields m r (map (hs_rec maj min) fs) r' ->
  reads (read_message m) (length hs) r = (map Ok (map HandshakeMessage hs), r') /\ r_buf r' = [].
Proof.
  intros W Hne Hb E Y. destruct (reassembly m maj min hs W fs r r' [] Hne Hb E Y) as (fs2 & r1 & b1 & R & Y1 & N1 & E1).
  apply app_eq_nil in E1 as [-> E1].
  assert (fs2 = []) as -> by (destruct fs2 as [|f fs2]; [reflexivity|]; inversion N1; subst; cbn in E1; apply app_eq_nil in E1; tauto).
  inversion Y1; subst. pose proof (yields_same_buf _ _ _ _ Y) as Hb'. rewrite Hb in Hb'. split; [|exact Hb'].
  rewrite R. f_equal. destruct r'; cbn in *; subst; reflexivity.
Qed.
