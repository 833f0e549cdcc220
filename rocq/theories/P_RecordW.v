(** Proofs about the record writer. *)
From Verif Require Import Spec_Record P_Util P_Codec.

Lemma ct_code t : content_type_code t = rfc_content_type t.
Proof. destruct t; reflexivity. Qed.
Lemma ct_range t : 0 <= rfc_content_type t < 256.
Proof. destruct t; vm_compute; intuition discriminate. Qed.

(** ** Single writes *)
Definition same_keys (w w' : writer) : Prop :=
  w_enc w' = w_enc w /\ w_count w' = w_count w /\ w_iv w' = w_iv w /\ w_log w' = w_log w.
Lemma same_keys_refl w : same_keys w w.
Proof. repeat split. Qed.
Lemma same_keys_trans a b c : same_keys a b -> same_keys b c -> same_keys a c.
Proof. unfold same_keys. intuition congruence. Qed.

Definition write_outcome (bs : bytes) (w : writer) (x : res unit) (w' : writer) : Prop :=
  same_keys w w' /\ (healthy w -> healthy w') /\
  exists p, w_out w' = w_out w ++ p /\
    ((x = Ok tt /\ p = bs) \/ (x = Err IoFailure /\ (exists q, bs = p ++ q) /\ ~ healthy w)).

Lemma write_all_spec bs w : exists x w', write_all bs w = (x, w') /\ write_outcome bs w x w'.
Proof.
  unfold write_all. destruct bs as [|b bs].
  - exists (Ok tt), w. split; [reflexivity|]. split; [apply same_keys_refl|]. split; [auto|].
    exists []. rewrite app_nil_r. auto.
  - destruct (w_plan w) as [|[|k] p] eqn:E.
    + eexists _, _. split; [reflexivity|]. split; [repeat split|]. split; [intros _; constructor|].
      exists (b :: bs). auto.
    + eexists _, _. split; [reflexivity|]. split; [repeat split|].
      split; [unfold healthy; rewrite E; intros H; inversion H; assumption|].
      exists (b :: bs). auto.
    + eexists _, _. split; [reflexivity|]. split; [repeat split|].
      split; [unfold healthy; rewrite E; intros H; inversion H; assumption|].
      exists (firstn k (b :: bs)). split; [reflexivity|]. right. split; [reflexivity|]. split.
      * exists (skipn k (b :: bs)). symmetry. apply firstn_skipn.
      * unfold healthy. rewrite E. intros H. inversion H. discriminate.
Qed.

Fixpoint emit (bss : list bytes) : M writer unit :=
  match bss with [] => mret tt | b :: r => do* _ := write_all b in emit r end.

Lemma emit_spec bss : forall w, exists x w', emit bss w = (x, w') /\ write_outcome (concat bss) w x w'.
Proof.
  induction bss as [|b bss IH]; intros w; cbn [emit].
  - exists (Ok tt), w. split; [reflexivity|]. split; [apply same_keys_refl|]. split; [auto|].
    exists []. rewrite app_nil_r. auto.
  - destruct (write_all_spec b w) as (x & w1 & E & K & Hh & p & Ho & C). unfold mbind at 1. rewrite E.
    destruct C as [[-> ->]|(-> & [q Hq] & Hn)].
    + destruct (IH w1) as (x2 & w2 & E2 & K2 & Hh2 & p2 & Ho2 & C2). exists x2, w2. split; [exact E2|].
      split; [eapply same_keys_trans; eassumption|]. split; [auto|].
      exists (b ++ p2). cbn [concat]. split; [rewrite Ho2, Ho, app_assoc; reflexivity|].
      destruct C2 as [[-> ->]|(-> & [q Hq] & Hn)]; [auto|].
      right. split; [reflexivity|]. split; [exists q; rewrite Hq, app_assoc; reflexivity|]. tauto.
    + exists (Err IoFailure), w1. split; [reflexivity|]. split; [exact K|]. split; [auto|].
      exists p. split; [exact Ho|]. right. split; [reflexivity|]. split; [|exact Hn].
      exists (q ++ concat bss). cbn [concat]. rewrite Hq, app_assoc. reflexivity.
Qed.

Definition header_parts (r : record) (frag : bytes) : list bytes :=
  [[z2b (content_type_code (rc_type r))]; [rc_major r]; [rc_minor r]; be 2 (zlen frag); frag].
Lemma header_parts_wire r frag :
  concat (header_parts r frag) = wire (rc_type r) (rc_major r) (rc_minor r) frag.
Proof. unfold header_parts, wire. rewrite ct_code. cbn [concat app]. rewrite app_nil_r. reflexivity. Qed.

Lemma mbind_assoc {S A B C} (x : M S A) (f : A -> M S B) (g : B -> M S C) s :
  mbind (mbind x f) g s = mbind x (fun a => mbind (f a) g) s.
Proof. unfold mbind. destruct (x s) as [[a| | |] s']; reflexivity. Qed.
Lemma mbind_ext {S A B} (x : M S A) (f g : A -> M S B) s :
  (forall a s, f a s = g a s) -> mbind x f s = mbind x g s.
Proof. intros H. unfold mbind. destruct (x s) as [[a| | |] s']; auto. Qed.

Lemma write_record_emit m r w : write_record m r w =
  (do* frag := protect r in
   if ENC_RECORD_MAX_LEN <? zlen frag then mfail Panic else
   do* _ := emit (header_parts r frag) in w_bump m) w.
Proof.
  unfold write_record. apply mbind_ext. intros frag s. destruct (ENC_RECORD_MAX_LEN <? zlen frag); [reflexivity|].
  unfold header_parts. cbn [emit].
  repeat (rewrite mbind_assoc; apply mbind_ext; intros _ ?). unfold mbind, mret. reflexivity.
Qed.

(** ** The nonce and the additional data *)
Lemma xor_into_zip a : forall b, length b = length a -> xor_into a b = xor_zip a b.
Proof. induction a as [|x a IH]; intros [|y b] H; try discriminate; cbn; [reflexivity|]. rewrite IH; [reflexivity|]. cbn in H. lia. Qed.
Lemma be_app n k z : be (n + k) z = be n (z / 256 ^ Z.of_nat k) ++ be k z.
Proof.
  induction n as [|n IH]; [reflexivity|]. cbn [Nat.add be app]. rewrite IH. f_equal. f_equal.
  rewrite Z.div_div by lia. f_equal. rewrite Nat2Z.inj_add, Z.pow_add_r by lia. lia.
Qed.
Lemma be_zero n : be n 0 = zeros n.
Proof. induction n as [|n IH]; [reflexivity|]. cbn [be]. rewrite IH, Zdiv_0_l. reflexivity. Qed.
Lemma seq_pad k : 0 <= k < 2 ^ 64 -> zeros 4 ++ be 8 k = be 12 k.
Proof.
  intros H. change 12%nat with (4 + 8)%nat. rewrite be_app. f_equal.
  rewrite Z.div_small; [symmetry; apply be_zero|]. exact H.
Qed.
Lemma seq_nonce_rfc k iv : 0 <= k < 2 ^ 64 -> length iv = 12%nat -> seq_nonce k (Some iv) = rfc_nonce iv k.
Proof.
  intros Hk Hi. unfold seq_nonce, rfc_nonce. rewrite seq_pad by exact Hk.
  apply xor_into_zip. rewrite Hi, be_length. reflexivity.
Qed.
Lemma seq_nonce_length k iv : length (seq_nonce k iv) = 12%nat.
Proof.
  unfold seq_nonce. destruct iv; rewrite ?xor_into_length, app_length, be_length; reflexivity.
Qed.
Lemma seq_ad_rfc k t maj min len : seq_ad k t maj min len = rfc_ad k t maj min len.
Proof. unfold seq_ad, rfc_ad. rewrite ct_code. reflexivity. Qed.
Lemma rfc_ad_length k t maj min len : length (rfc_ad k t maj min len) = 13%nat.
Proof. unfold rfc_ad. rewrite !app_length, !be_length. reflexivity. Qed.

Lemma xor_zip_inj iv : forall a b, length a = length iv -> length b = length iv ->
  xor_zip a iv = xor_zip b iv -> a = b.
Proof.
  induction iv as [|y iv IH]; intros [|x a] [|x' b] Ha Hb H; try discriminate; [reflexivity|].
  cbn in H. assert (H1 : bxor x y = bxor x' y) by congruence. assert (H2 : xor_zip a iv = xor_zip b iv) by congruence.
  f_equal.
  - rewrite <- (bxor_cancel_r x y), <- (bxor_cancel_r x' y), H1. reflexivity.
  - apply IH; cbn in *; try lia. exact H2.
Qed.
Lemma rfc_nonce_inj iv a b : length iv = 12%nat -> 0 <= a < 2 ^ 64 -> 0 <= b < 2 ^ 64 ->
  rfc_nonce iv a = rfc_nonce iv b -> a = b.
Proof.
  intros Hi Ha Hb H. apply xor_zip_inj in H; [|rewrite be_length; lia..].
  apply be_inj in H; [exact H| |];
    (split; [lia|]); (apply Z.lt_trans with (2 ^ 64); [lia|]); vm_compute; reflexivity.
Qed.

(** ** One record *)
Definition bumped (m : mode) (w : writer) : res Z := ck m 64 (w_count w + 1).
Lemma ck_ok m w x : 0 <= x < 2 ^ w -> ck m w x = Ok x.
Proof.
  intros H. unfold ck. replace (0 <=? x) with true by (symmetry; apply Z.leb_le; lia).
  replace (x <? 2 ^ w) with true by (symmetry; apply Z.ltb_lt; lia). reflexivity.
Qed.

(** after the fragment has been protected *)
Lemma write_record_after m r w s w1 : protect r w = (Ok s, w1) -> zlen s <= ENC_RECORD_MAX_LEN ->
  exists x w2, emit (header_parts r s) w1 = (x, w2) /\
    write_outcome (wire (rc_type r) (rc_major r) (rc_minor r) s) w1 x w2 /\
    write_record m r w = (match x with Ok _ => w_bump m w2 | Err k => (Err k, w2) | Panic => (Panic, w2) | Diverge => (Diverge, w2) end).
Proof.
  intros E Hs. destruct (emit_spec (header_parts r s) w1) as (x & w2 & E2 & H). rewrite header_parts_wire in H.
  exists x, w2. split; [exact E2|]. split; [exact H|].
  rewrite write_record_emit. unfold mbind at 1. rewrite E.
  replace (ENC_RECORD_MAX_LEN <? zlen s) with false by (symmetry; apply Z.ltb_ge; exact Hs).
  unfold mbind. rewrite E2. destruct x; reflexivity.
Qed.

Definition advance (w : writer) (x : res unit) (w' : writer) : Prop :=
  w_enc w' = w_enc w /\ w_iv w' = w_iv w /\ (healthy w -> healthy w') /\ (x = Ok tt -> w_count w' = w_count w + 1).

Lemma write_record_one m t maj min f w s w1 :
  protect (Rec t maj min f) w = (Ok s, w1) -> zlen s <= ENC_RECORD_MAX_LEN ->
  0 <= w_count w -> w_count w + 1 < 2 ^ 64 ->
  exists x w', write_record m (Rec t maj min f) w = (x, w') /\
    emitted w x w' (wire t maj min s) /\ advance w x w'.
Proof.
  intros E Hs Hc Hc'.
  assert (Hw1 : w_enc w1 = w_enc w /\ w_iv w1 = w_iv w /\ w_count w1 = w_count w /\ w_plan w1 = w_plan w /\ w_out w1 = w_out w).
  { unfold protect in E. destruct (w_enc w) as [e|] eqn:Ee.
    - match type of E with context [match ?c with _ => _ end] => destruct c as [cc| | |] eqn:Eq end; try discriminate.
      inversion E; subst; cbn. rewrite ?Ee; auto.
    - inversion E; subst; auto. }
  destruct Hw1 as (H1 & H2 & H3 & H4 & H5).
  destruct (write_record_after m (Rec t maj min f) w s w1 E Hs) as (x & w2 & E2 & (K & Hh & p & Ho & C) & Er).
  cbn [rc_type rc_major rc_minor] in *. destruct K as (K1 & K2 & K3 & K4).
  assert (Hp : healthy w <-> healthy w1) by (unfold healthy; rewrite H4; reflexivity).
  destruct C as [[-> ->]|(-> & [q Hq] & Hn)].
  - unfold w_bump in Er. rewrite ck_ok in Er by lia.
    eexists _, _. split; [exact Er|]. split; [left; split; [reflexivity|]; cbn [w_out]; rewrite Ho, H5; reflexivity|].
    unfold advance; cbn. split; [congruence|]. split; [congruence|]. split; [|intros _; lia].
    intros H. apply Hp in H. apply Hh in H. exact H.
  - eexists _, _. split; [exact Er|]. split.
    + right. split; [reflexivity|]. split; [tauto|]. exists p, q. split; [exact Hq|congruence].
    + unfold advance. split; [congruence|]. split; [congruence|]. split; [tauto|discriminate].
Qed.

Lemma emitted_cons w x1 w1 a x2 w2 b : emitted w x1 w1 a -> (healthy w -> healthy w1) -> x1 = Ok tt ->
  emitted w1 x2 w2 b -> emitted w x2 w2 (a ++ b).
Proof.
  intros [[_ H1]|(H & _)] Hh Hx H2; [|congruence].
  destruct H2 as [[-> H2]|(-> & Hn & s & u & H2 & H3)].
  - left. split; [reflexivity|]. rewrite H2, H1, app_assoc. reflexivity.
  - right. split; [reflexivity|]. split; [tauto|]. exists (a ++ s), u.
    split; [rewrite H2, app_assoc; reflexivity|rewrite H3, H1, app_assoc; reflexivity].
Qed.
Lemma emitted_cut w x1 w1 a b : emitted w x1 w1 a -> x1 <> Ok tt -> emitted w x1 w1 (a ++ b).
Proof.
  intros [[-> _]|(-> & Hn & s & u & H2 & H3)] H; [congruence|].
  right. split; [reflexivity|]. split; [exact Hn|]. exists s, (u ++ b). split; [rewrite H2, app_assoc; reflexivity|exact H3].
Qed.

(** ** [write_data] *)
Lemma record_new_legal t f : legal_fragment f -> record_new t x03 x03 f = Ok (Rec t x03 x03 f).
Proof.
  intros [_ H]. unfold record_new. replace (RECORD_MAX_LEN <? zlen f) with false; [reflexivity|].
  symmetry. apply Z.ltb_ge. exact H.
Qed.

Lemma protect_clear r w : w_enc w = None -> protect r w = (Ok (rc_fragment r), w).
Proof. intros H. unfold protect. rewrite H. reflexivity. Qed.

Lemma write_fragments_clear m t fs : Forall legal_fragment fs -> forall w,
  w_enc w = None -> 0 <= w_count w -> w_count w + zlen fs < 2 ^ 64 ->
  exists x w', write_fragments m t fs w = (x, w') /\ emitted w x w' (concat (map (e_record t) fs)) /\
    w_enc w' = None /\ w_iv w' = w_iv w /\ (healthy w -> healthy w') /\
    (x = Ok tt -> w_count w' = w_count w + zlen fs).
Proof.
  induction 1 as [|f fs Hf Hfs IH]; intros w He Hc Hl.
  - exists (Ok tt), w. cbn [write_fragments]. split; [reflexivity|]. split; [left; rewrite app_nil_r; auto|].
    repeat split; auto. intros _. rewrite zlen_nil. lia.
  - rewrite zlen_cons in Hl. pose proof (zlen_nonneg fs).
    destruct (write_record_one m t x03 x03 f w f w) as (x & w1 & E & Em & A1 & A2 & A3 & A4);
      [apply protect_clear; exact He| |lia|lia|].
    { destruct Hf as [_ Hf]. unfold ENC_RECORD_MAX_LEN. lia. }
    cbn [write_fragments]. unfold mbind at 1, mlift. cbn [fst snd tls_version].
    rewrite record_new_legal by exact Hf. unfold mbind at 1. rewrite E.
    destruct x as [[]| | |].
    + specialize (A4 eq_refl). destruct (IH w1) as (x & w2 & E2 & Em2 & B1 & B2 & B3 & B4); [congruence|lia|lia|].
      exists x, w2. split; [exact E2|]. split; [cbn [map concat]; eapply emitted_cons; eauto|].
      split; [exact B1|]. split; [congruence|]. split; [auto|]. intros Hx. rewrite (B4 Hx), A4, zlen_cons. lia.
    + exists (Err k), w1. split; [reflexivity|]. split; [cbn [map concat]; eapply emitted_cut; [eauto|discriminate]|].
      split; [congruence|]. split; [exact A2|]. split; [exact A3|discriminate].
    + destruct Em as [[? _]|[? _]]; discriminate.
    + destruct Em as [[? _]|[? _]]; discriminate.
Qed.

Lemma protect_sealed e iv k r w : w_enc w = Some e -> w_iv w = Some iv -> length iv = 12%nat -> seals e k ->
  0 <= w_count w < 2 ^ 64 -> zlen (rc_fragment r) <= 16384 ->
  exists s w1, protect r w = (Ok s, w1) /\ zlen s = zlen (rc_fragment r) + k /\
    e (rfc_nonce iv (w_count w)) (rc_fragment r)
      (rfc_ad (w_count w) (rc_type r) (rc_major r) (rc_minor r) (zlen (rc_fragment r))) = Ok s.
Proof.
  intros He Hi Hl Hs Hc Hf. unfold protect. rewrite He, Hi, seq_nonce_rfc, seq_ad_rfc by assumption.
  destruct (Hs (rfc_nonce iv (w_count w)) (rc_fragment r)
      (rfc_ad (w_count w) (rc_type r) (rc_major r) (rc_minor r) (zlen (rc_fragment r)))) as (c & Ec & Lc).
  - rewrite <- seq_nonce_rfc by assumption. apply seq_nonce_length.
  - apply rfc_ad_length.
  - exact Hf.
  - rewrite Ec. eauto.
Qed.

Lemma write_fragments_sealed m t e iv k fs : length iv = 12%nat -> seals e k -> 0 <= k <= 2048 ->
  Forall legal_fragment fs -> forall w,
  w_enc w = Some e -> w_iv w = Some iv -> 0 <= w_count w -> w_count w + zlen fs < 2 ^ 64 ->
  exists x w' ss, write_fragments m t fs w = (x, w') /\
    sealed_as e iv (w_count w) t fs ss /\ Forall (fun s => zlen s <= 16384 + k) ss /\
    emitted w x w' (concat (map (e_record t) ss)) /\
    w_enc w' = Some e /\ w_iv w' = Some iv /\ (healthy w -> healthy w') /\
    (x = Ok tt -> w_count w' = w_count w + zlen fs).
Proof.
  intros Hiv Hs Hk. induction 1 as [|f fs Hf Hfs IH]; intros w He Hi Hc Hl.
  - exists (Ok tt), w, []. cbn [write_fragments]. split; [reflexivity|].
    split; [split; [reflexivity|]; intros [|i] ? ? Hx; discriminate Hx|].
    split; [constructor|]. split; [left; rewrite app_nil_r; auto|].
    repeat split; auto. intros _. rewrite zlen_nil. lia.
  - rewrite zlen_cons in Hl. pose proof (zlen_nonneg fs).
    destruct (protect_sealed e iv k (Rec t x03 x03 f) w He Hi Hiv Hs) as (s & w0 & Ep & Ls & Es);
      [lia|apply Hf|]. cbn [rc_type rc_major rc_minor rc_fragment] in *. destruct Hf as [Hf1 Hf2].
    destruct (write_record_one m t x03 x03 f w s w0 Ep) as (x & w1 & E & Em & A1 & A2 & A3 & A4);
      [unfold ENC_RECORD_MAX_LEN; lia|lia|lia|].
    cbn [write_fragments]. unfold mbind at 1, mlift. cbn [fst snd tls_version].
    rewrite record_new_legal by (split; assumption). unfold mbind at 1. rewrite E.
    assert (Hss : exists w', w_enc w' = Some e /\ w_iv w' = Some iv /\ w_count w' = w_count w + 1 /\
                  (x = Ok tt -> w' = w1)).
    { destruct x as [[]| | |].
      - exists w1. specialize (A4 eq_refl). repeat split; congruence.
      - exists (Writer [] [] (Some e) (w_count w + 1) (Some iv) []). repeat split; discriminate.
      - destruct Em as [[? _]|[? _]]; discriminate.
      - destruct Em as [[? _]|[? _]]; discriminate. }
    destruct Hss as (w' & W1 & W2 & W3 & W4).
    destruct (IH w' W1 W2) as (x2 & w2 & ss & E2 & [S0 S1] & S2 & Em2 & B1 & B2 & B3 & B4); [lia|lia|].
    assert (Hsa : sealed_as e iv (w_count w) t (f :: fs) (s :: ss)).
    { split; [cbn; lia|]. intros [|i] f' s' Hf' Hs'.
      - inversion Hf'; inversion Hs'; subst. replace (w_count w + Z.of_nat 0) with (w_count w) by lia. exact Es.
      - replace (w_count w + Z.of_nat (S i)) with (w_count w' + Z.of_nat i) by lia. apply S1; assumption. }
    assert (Hb : Forall (fun s => zlen s <= 16384 + k) (s :: ss)) by (constructor; [lia|assumption]).
    destruct x as [[]| | |].
    + specialize (A4 eq_refl). specialize (W4 eq_refl). subst w'.
      exists x2, w2, (s :: ss). split; [exact E2|]. split; [exact Hsa|]. split; [exact Hb|].
      split; [cbn [map concat]; eapply emitted_cons; eauto|].
      split; [exact B1|]. split; [exact B2|]. split; [auto|]. intros Hx. rewrite (B4 Hx), A4, zlen_cons. lia.
    + exists (Err k0), w1, (s :: ss). split; [reflexivity|]. split; [exact Hsa|]. split; [exact Hb|].
      split; [cbn [map concat]; eapply emitted_cut; [eauto|discriminate]|].
      split; [congruence|]. split; [congruence|]. split; [exact A3|discriminate].
    + destruct Em as [[? _]|[? _]]; discriminate.
    + destruct Em as [[? _]|[? _]]; discriminate.
Qed.

Lemma fragments_legal data :
  let fs := chunks (Z.to_nat RECORD_MAX_LEN) data in
  concat fs = data /\ Forall legal_fragment fs /\ zlen fs <= zlen data.
Proof.
  intros fs. assert (H0 : (0 < Z.to_nat RECORD_MAX_LEN)%nat) by (unfold RECORD_MAX_LEN; lia).
  assert (Hc : concat fs = data) by (apply chunks_concat; exact H0).
  assert (Hl : Forall legal_fragment fs).
  { eapply Forall_impl; [|apply chunks_lengths; exact H0]. intros f Hf. cbn beta in Hf.
    unfold legal_fragment, zlen, RECORD_MAX_LEN in *. lia. }
  repeat split; try assumption.
  clearbody fs. subst data. induction Hl as [|f fs Hf Hl IH]; [reflexivity|].
  cbn [concat]. rewrite zlen_cons, zlen_app. destruct Hf. lia.
Qed.

Lemma write_data_clear m t data w : w_enc w = None -> 0 <= w_count w -> w_count w + zlen data < 2 ^ 64 ->
  exists x w' fs, write_data m t data w = (x, w') /\ concat fs = data /\ Forall legal_fragment fs /\
    emitted w x w' (concat (map (e_record t) fs)).
Proof.
  intros He Hc Hl. destruct (fragments_legal data) as (H1 & H2 & H3).
  destruct (write_fragments_clear m t _ H2 w He Hc) as (x & w' & E & Em & _); [lia|].
  exists x, w', (chunks (Z.to_nat RECORD_MAX_LEN) data). auto.
Qed.

Lemma write_data_sealed m t data w e iv k : seals e k -> 0 <= k <= 2048 -> length iv = 12%nat ->
  w_enc w = Some e -> w_iv w = Some iv -> 0 <= w_count w -> w_count w + zlen data < 2 ^ 64 ->
  exists x w' fs ss, write_data m t data w = (x, w') /\ concat fs = data /\ Forall legal_fragment fs /\
    sealed_as e iv (w_count w) t fs ss /\ Forall (fun s => zlen s <= 16384 + k) ss /\
    emitted w x w' (concat (map (e_record t) ss)).
Proof.
  intros Hs Hk Hiv He Hi Hc Hl. destruct (fragments_legal data) as (H1 & H2 & H3).
  destruct (write_fragments_sealed m t e iv k _ Hiv Hs Hk H2 w He Hi Hc) as (x & w' & ss & E & S1 & S2 & Em & _); [lia|].
  exists x, w', (chunks (Z.to_nat RECORD_MAX_LEN) data), ss. auto 10.
Qed.

(** ** Invariants over histories of calls: [P] after a normal return, [Q] after a panic *)
Definition keeps {A} (P Q : writer -> Prop) (act : M writer A) : Prop :=
  forall w, P w -> match act w with (Ok _, w') | (Err _, w') => P w' | (_, w') => Q w' end.

Lemma keeps_bind {A B} (P Q : writer -> Prop) (x : M writer A) (f : A -> M writer B) :
  (forall w, P w -> Q w) -> keeps P Q x -> (forall a, keeps P Q (f a)) -> keeps P Q (mbind x f).
Proof.
  intros HPQ Hx Hf w Hw. unfold mbind. specialize (Hx w Hw). destruct (x w) as [[a| | |] w']; auto.
  apply Hf. exact Hx.
Qed.
Lemma keeps_ret {A} P Q (a : A) : keeps P Q (mret a).
Proof. intros w Hw. exact Hw. Qed.
Lemma keeps_lift {A} (P Q : writer -> Prop) (r : res A) : (forall w, P w -> Q w) -> keeps P Q (mlift r).
Proof. intros HPQ w Hw. unfold mlift. destruct r; auto. Qed.

Section Histories.
  Variables (m : mode) (P Q : writer -> Prop).
  Hypothesis HPQ : forall w, P w -> Q w.
  Hypothesis Henc : forall w, P w -> w_enc w <> None.
  Hypothesis Hrec : forall r, zlen (rc_fragment r) <= RECORD_MAX_LEN -> keeps P Q (write_record m r).
  Hypothesis Hset : forall iv, keeps P Q (w_set_iv iv).

  Lemma keeps_new {B} t maj min f (k : record -> M writer B) :
    (forall r, zlen (rc_fragment r) <= RECORD_MAX_LEN -> keeps P Q (k r)) ->
    keeps P Q (do* r := mlift (record_new t maj min f) in k r).
  Proof.
    intros H w Hw. unfold mbind, mlift, record_new. destruct (RECORD_MAX_LEN <? zlen f) eqn:E; [apply HPQ; exact Hw|].
    apply Z.ltb_ge in E. apply (H (Rec t maj min f)); assumption.
  Qed.
  Lemma keeps_fragments t fs : keeps P Q (write_fragments m t fs).
  Proof.
    induction fs as [|f fs IH]; cbn [write_fragments]; [apply keeps_ret|].
    apply keeps_new. intros r Hr.
    apply keeps_bind; [exact HPQ|apply Hrec; exact Hr|]. intros _. exact IH.
  Qed.
  Lemma keeps_op o : keeps P Q (run_op m o).
  Proof.
    destruct o; cbn [run_op].
    - apply keeps_new. exact Hrec.
    - apply keeps_fragments.
    - apply keeps_bind; [exact HPQ|apply keeps_lift; exact HPQ|]. intros r. apply keeps_fragments.
    - apply keeps_bind; [exact HPQ|apply keeps_lift; exact HPQ|]. intros r. apply keeps_fragments.
    - apply keeps_fragments.
    - intros w Hw. unfold write_application_data. destruct (w_enc w) eqn:E; [|apply HPQ; exact Hw].
      apply keeps_fragments. exact Hw.
    - intros w Hw. unfold w_set_encryptor. destruct (w_enc w) eqn:E; [apply HPQ; exact Hw|].
      exfalso. eapply Henc; eauto.
    - apply Hset.
  Qed.
  Lemma keeps_ops ops : forall w, P w -> Q (snd (run_ops m ops w)).
  Proof.
    induction ops as [|o ops IH]; intros w Hw; cbn [run_ops]; [apply HPQ; exact Hw|].
    pose proof (keeps_op o w Hw) as K. destruct (run_op m o w) as [[[]| | |] w1]; cbn [snd]; try exact K;
      specialize (IH w1 K); destruct (run_ops m ops w1); exact IH.
  Qed.
End Histories.

(** *** Everything sent is sealed *)
Definition sealed_since (e : encryptor) (w0 w : writer) : Prop :=
  w_enc w = Some e /\ exists log pieces,
    w_log w = w_log w0 ++ log /\ Forall (logged_by e) log /\
    w_out w = w_out w0 ++ concat pieces /\ Forall (sealed_piece log) pieces.

Lemma sealed_piece_more log l p : sealed_piece log p -> sealed_piece (log ++ l) p.
Proof.
  intros (t & a & b & x & cut & Hin & H). exists t, a, b, x, cut. split; [apply in_or_app; auto|exact H].
Qed.

Lemma write_record_sealed m e w0 r : keeps (sealed_since e w0) (sealed_since e w0) (write_record m r).
Proof.
  intros w (He & log & pieces & Hlog & Hby & Hout & Hp).
  destruct (protect r w) as [x w1] eqn:E. pose proof E as E'. unfold protect in E'. rewrite He in E'.
  set (nonce := seq_nonce (w_count w) (w_iv w)) in *. set (ad := seq_ad _ _ _ _ _) in *.
  destruct (e nonce (rc_fragment r) ad) as [c|k| |] eqn:Ec; inversion E'; subst x w1; clear E'.
  2-4: rewrite write_record_emit; unfold mbind at 1; rewrite E;
       (split; [exact He|]; exists log, pieces; auto).
  set (l := (nonce, rc_fragment r, ad, c)) in *.
  set (w1 := Writer (w_out w) (w_plan w) (Some e) (w_count w) (w_iv w) (w_log w ++ [l])) in *.
  assert (Hl : Forall (logged_by e) (log ++ [l])).
  { apply Forall_app. split; [exact Hby|]. constructor; [exact Ec|constructor]. }
  assert (Hp' : Forall (sealed_piece (log ++ [l])) pieces).
  { eapply Forall_impl; [|exact Hp]. intros p. apply sealed_piece_more. }
  assert (Hlog1 : w_log w1 = w_log w0 ++ (log ++ [l])) by (cbn; rewrite Hlog, app_assoc; reflexivity).
  destruct (Z.leb_spec (zlen c) ENC_RECORD_MAX_LEN) as [Hlen|Hlen].
  - destruct (write_record_after m r w c w1 E Hlen) as (x & w2 & _ & ((K1 & K2 & K3 & K4) & Hh & p & Ho & C) & Er).
    assert (Hgoal : forall w3, w_enc w3 = w_enc w2 -> w_log w3 = w_log w2 -> w_out w3 = w_out w2 -> sealed_since e w0 w3).
    { intros w3 T1 T2 T3. split; [rewrite T1, K1; reflexivity|]. exists (log ++ [l]), (pieces ++ [p]).
      split; [rewrite T2, K4; exact Hlog1|]. split; [exact Hl|]. split.
      - rewrite T3, Ho, concat_app. cbn [w_out w1 concat]. unfold w1; cbn [w_out]. rewrite Hout, app_nil_r, app_assoc. reflexivity.
      - apply Forall_app. split; [exact Hp'|]. constructor; [|constructor].
        destruct C as [[_ ->]|(_ & [q Hq] & _)].
        + exists (rc_type r), (rc_major r), (rc_minor r), l, []. split; [apply in_or_app; right; left; reflexivity|].
          apply app_nil_r.
        + exists (rc_type r), (rc_major r), (rc_minor r), l, q. split; [apply in_or_app; right; left; reflexivity|].
          symmetry. exact Hq. }
    rewrite Er. destruct x as [[]| | |]; try (apply Hgoal; reflexivity).
    unfold w_bump. destruct (ck m 64 (w_count w2 + 1)); apply Hgoal; reflexivity.
  - rewrite write_record_emit. unfold mbind at 1. rewrite E.
    replace (ENC_RECORD_MAX_LEN <? zlen c) with true by (symmetry; apply Z.ltb_lt; exact Hlen).
    cbn. split; [reflexivity|]. exists (log ++ [l]), pieces. auto.
Qed.

Lemma set_iv_sealed e w0 iv : keeps (sealed_since e w0) (sealed_since e w0) (w_set_iv iv).
Proof.
  intros w H. unfold w_set_iv. destruct (w_iv w); [exact H|]. exact H.
Qed.

Lemma ops_sealed m ops e w : w_enc w = Some e ->
  exists log pieces, let w' := snd (run_ops m ops w) in
    w_enc w' = Some e /\ w_log w' = w_log w ++ log /\ Forall (logged_by e) log /\
    w_out w' = w_out w ++ concat pieces /\ Forall (sealed_piece log) pieces.
Proof.
  intros He.
  assert (H : sealed_since e w (snd (run_ops m ops w))).
  { apply (keeps_ops m (sealed_since e w) (sealed_since e w)).
    - auto.
    - intros w1 (H & _). congruence.
    - intros r _. apply write_record_sealed.
    - apply set_iv_sealed.
    - split; [exact He|]. exists [], []. rewrite !app_nil_r. auto. }
  destruct H as (H & log & pieces & H1 & H2 & H3 & H4). exists log, pieces. auto.
Qed.

Lemma app_data_needs_encryptor m d w : w_enc w = None -> write_application_data m d w = (Panic, w).
Proof. intros H. unfold write_application_data. rewrite H. reflexivity. Qed.
Lemma encryptor_once e e' w : w_enc w = Some e -> w_set_encryptor e' w = (Panic, w).
Proof. intros H. unfold w_set_encryptor. rewrite H. reflexivity. Qed.

(** *** Sequence numbers *)
Definition log_ok (iv : bytes) (log : list (bytes * bytes * bytes * bytes)) : Prop :=
  forall i l, nth_error log i = Some l ->
    log_nonce l = seq_nonce (Z.of_nat i mod 2 ^ 64) (Some iv) /\
    exists t maj min, log_ad l = seq_ad (Z.of_nat i mod 2 ^ 64) t maj min (zlen (log_plain l)).
Definition numbered (e : encryptor) (iv : bytes) (w : writer) : Prop :=
  healthy w /\ w_enc w = Some e /\ w_iv w = Some iv /\ w_count w = zlen (w_log w) mod 2 ^ 64 /\ log_ok iv (w_log w).

Lemma log_ok_snoc iv log l : log_ok iv log ->
  log_nonce l = seq_nonce (zlen log mod 2 ^ 64) (Some iv) ->
  (exists t maj min, log_ad l = seq_ad (zlen log mod 2 ^ 64) t maj min (zlen (log_plain l))) ->
  log_ok iv (log ++ [l]).
Proof.
  intros H Hn Ha i x Hx. destruct (Nat.ltb_spec i (length log)) as [Hi|Hi].
  - rewrite nth_error_app1 in Hx by exact Hi. apply H. exact Hx.
  - rewrite nth_error_app2 in Hx by exact Hi.
    assert (Hi' : (i - length log < length [l])%nat) by (apply nth_error_Some; congruence). cbn in Hi'.
    replace (i - length log)%nat with 0%nat in Hx by lia. cbn in Hx. inversion Hx; subst x.
    replace (Z.of_nat i) with (zlen log) by (unfold zlen; lia). auto.
Qed.

Lemma write_record_numbered m e iv r :
  keeps (numbered e iv) (fun w => log_ok iv (w_log w)) (write_record m r).
Proof.
  intros w (Hh & He & Hi & Hc & Hl).
  destruct (protect r w) as [x w1] eqn:E. pose proof E as E'. unfold protect in E'. rewrite He, Hi in E'.
  set (nonce := seq_nonce (w_count w) (Some iv)) in *. set (ad := seq_ad _ _ _ _ _) in *.
  destruct (e nonce (rc_fragment r) ad) as [c|k| |] eqn:Ec; inversion E'; subst x w1; clear E'.
  2: rewrite write_record_emit; unfold mbind at 1; rewrite E; exact (conj Hh (conj He (conj Hi (conj Hc Hl)))).
  2-3: rewrite write_record_emit; unfold mbind at 1; rewrite E; exact Hl.
  set (l := (nonce, rc_fragment r, ad, c)) in *.
  set (w1 := Writer (w_out w) (w_plan w) (Some e) (w_count w) (Some iv) (w_log w ++ [l])) in *.
  assert (Hl1 : log_ok iv (w_log w1)).
  { apply log_ok_snoc; [exact Hl| |].
    - cbn. unfold nonce. rewrite Hc. reflexivity.
    - exists (rc_type r), (rc_major r), (rc_minor r). unfold ad, l, log_ad, log_plain. cbn [fst snd].
      fold ad. unfold ad. rewrite Hc. reflexivity. }
  destruct (Z.leb_spec (zlen c) ENC_RECORD_MAX_LEN) as [Hlen|Hlen].
  - destruct (write_record_after m r w c w1 E Hlen) as (x & w2 & _ & ((K1 & K2 & K3 & K4) & Hh2 & p & Ho & C) & Er).
    assert (Hh1 : healthy w1) by exact Hh.
    destruct C as [[-> _]|(_ & _ & Hn)]; [|contradiction].
    rewrite Er. unfold w_bump.
    assert (Hlog2 : log_ok iv (w_log w2)) by (rewrite K4; exact Hl1).
    assert (Hlen1 : zlen (w_log w1) = zlen (w_log w) + 1) by (cbn [w_log w1]; unfold w1; cbn [w_log]; rewrite zlen_app, zlen_cons, zlen_nil; lia).
    assert (Hnext : forall c', c' = (w_count w2 + 1) mod 2 ^ 64 ->
              numbered e iv (Writer (w_out w2) (w_plan w2) (w_enc w2) c' (w_iv w2) (w_log w2))).
    { intros c' ->. split; [exact (Hh2 Hh1)|]. split; [exact K1|]. split; [exact K3|]. split; [|exact Hlog2].
      cbn [w_count w_log]. rewrite K4, Hlen1, K2. cbn [w_count w1]. unfold w1; cbn [w_count]. rewrite Hc.
      rewrite Zplus_mod_idemp_l. reflexivity. }
    unfold ck. destruct ((0 <=? w_count w2 + 1) && (w_count w2 + 1 <? 2 ^ 64)) eqn:Eb.
    + apply andb_prop in Eb. apply Hnext. symmetry. apply Z.mod_small. lia.
    + destruct m; [exact Hlog2|apply Hnext; reflexivity].
  - rewrite write_record_emit. unfold mbind at 1. rewrite E.
    replace (ENC_RECORD_MAX_LEN <? zlen c) with true by (symmetry; apply Z.ltb_lt; exact Hlen).
    exact Hl1.
Qed.

Lemma ops_numbered m ops e iv w : healthy w -> w_enc w = Some e -> w_iv w = Some iv -> length iv = 12%nat ->
  w_count w = 0 -> w_log w = [] -> zlen (w_log (snd (run_ops m ops w))) <= 2 ^ 64 ->
  (forall k l, nth_error (w_log (snd (run_ops m ops w))) k = Some l ->
     log_nonce l = rfc_nonce iv (Z.of_nat k) /\
     exists t maj min, log_ad l = rfc_ad (Z.of_nat k) t maj min (zlen (log_plain l))) /\
  NoDup (map log_nonce (w_log (snd (run_ops m ops w)))).
Proof.
  intros Hh He Hi Hiv Hc Hl Hlen.
  assert (H : log_ok iv (w_log (snd (run_ops m ops w)))).
  { apply (keeps_ops m (numbered e iv) (fun w => log_ok iv (w_log w))).
    - intros w1 (_ & _ & _ & _ & H). exact H.
    - intros w1 (_ & H & _). congruence.
    - intros r _. apply write_record_numbered.
    - intros iv' w1 (H1 & H2 & H3 & H4 & H5). unfold w_set_iv. rewrite H3. exact H5.
    - split; [exact Hh|]. split; [exact He|]. split; [exact Hi|]. rewrite Hl, Hc. split; [reflexivity|].
      intros [|i] l Hx; discriminate Hx. }
  set (log := w_log (snd (run_ops m ops w))) in *. clearbody log.
  assert (Hr : forall k l, nth_error log k = Some l -> 0 <= Z.of_nat k < 2 ^ 64).
  { intros k l Hk. assert (k < length log)%nat by (apply nth_error_Some; congruence). unfold zlen in Hlen. lia. }
  assert (H1 : forall k l, nth_error log k = Some l ->
     log_nonce l = rfc_nonce iv (Z.of_nat k) /\
     exists t maj min, log_ad l = rfc_ad (Z.of_nat k) t maj min (zlen (log_plain l))).
  { intros k l Hk. specialize (Hr k l Hk). destruct (H k l Hk) as (Hn & t & maj & min & Ha).
    rewrite Z.mod_small in Hn, Ha by exact Hr. rewrite seq_nonce_rfc in Hn by assumption.
    split; [exact Hn|]. exists t, maj, min. rewrite Ha, seq_ad_rfc. reflexivity. }
  split; [exact H1|].
  apply NoDup_nth_error. intros i j Hij Heq. rewrite map_length in Hij.
  rewrite !nth_error_map in Heq.
  destruct (nth_error log i) as [a|] eqn:Ea; [|apply nth_error_None in Ea; lia].
  destruct (nth_error log j) as [b|] eqn:Eb; [|discriminate Heq].
  cbn in Heq. inversion Heq as [Hab].
  destruct (H1 i a Ea) as [Ni _]. destruct (H1 j b Eb) as [Nj _]. rewrite Ni, Nj in Hab.
  apply rfc_nonce_inj in Hab; [lia|exact Hiv|eapply Hr; eassumption|eapply Hr; eassumption].
Qed.

(** logged plaintexts are legal: every record comes from [record_new] *)
Lemma write_record_plain m r : zlen (rc_fragment r) <= RECORD_MAX_LEN ->
  let P := fun w => w_enc w <> None /\ Forall (fun l => zlen (log_plain l) <= RECORD_MAX_LEN) (w_log w) in
  keeps P P (write_record m r).
Proof.
  intros Hr P w [He Hl]. destruct (w_enc w) as [e|] eqn:Ee; [|contradiction].
  destruct (protect r w) as [x w1] eqn:E. pose proof E as E'. unfold protect in E'. rewrite Ee in E'.
  set (nonce := seq_nonce (w_count w) (w_iv w)) in *. set (ad := seq_ad _ _ _ _ _) in *.
  destruct (e nonce (rc_fragment r) ad) as [c|k| |] eqn:Ec; inversion E'; subst x w1; clear E'.
  2-4: rewrite write_record_emit; unfold mbind at 1; rewrite E; (split; [congruence|exact Hl]).
  set (l := (nonce, rc_fragment r, ad, c)) in *.
  set (w1 := Writer (w_out w) (w_plan w) (Some e) (w_count w) (w_iv w) (w_log w ++ [l])) in *.
  assert (H1 : P w1).
  { split; [discriminate|]. cbn. apply Forall_app. split; [exact Hl|]. constructor; [exact Hr|constructor]. }
  assert (Hk : forall w2, w_enc w2 = w_enc w1 -> w_log w2 = w_log w1 -> P w2).
  { intros w2 K1 K2. unfold P. rewrite K1, K2. exact H1. }
  destruct (Z.leb_spec (zlen c) ENC_RECORD_MAX_LEN) as [Hlen|Hlen].
  - destruct (write_record_after m r w c w1 E Hlen) as (x & w2 & _ & ((K1 & K2 & K3 & K4) & _) & Er).
    rewrite Er. destruct x as [[]| | |]; try (apply Hk; assumption).
    unfold w_bump. destruct (ck m 64 (w_count w2 + 1)); apply Hk; assumption.
  - rewrite write_record_emit. unfold mbind at 1. rewrite E.
    replace (ENC_RECORD_MAX_LEN <? zlen c) with true by (symmetry; apply Z.ltb_lt; exact Hlen).
    exact H1.
Qed.
Lemma ops_plain m ops w : w_enc w <> None -> w_log w = [] ->
  Forall (fun l => zlen (log_plain l) <= RECORD_MAX_LEN) (w_log (snd (run_ops m ops w))).
Proof.
  intros He Hl. set (P := fun w => w_enc w <> None /\ Forall (fun l => zlen (log_plain l) <= RECORD_MAX_LEN) (w_log w)).
  apply (keeps_ops m P P).
  - auto.
  - intros w1 (H & _). exact H.
  - intros r Hr. apply (write_record_plain m r Hr).
  - intros iv' w1 H1. unfold w_set_iv. destruct (w_iv w1); exact H1.
  - split; [exact He|]. rewrite Hl. constructor.
Qed.

(** ** Nonce reuse after a failed write *)
Lemma write_record_step m t maj min f w w1 s : protect (Rec t maj min f) w = (Ok s, w1) ->
  zlen s <= ENC_RECORD_MAX_LEN ->
  write_record m (Rec t maj min f) w =
    (do* _ := emit (header_parts (Rec t maj min f) s) in w_bump m) w1.
Proof.
  intros E Hs. rewrite write_record_emit. unfold mbind at 1. rewrite E.
  replace (ENC_RECORD_MAX_LEN <? zlen s) with false by (symmetry; apply Z.ltb_ge; exact Hs). reflexivity.
Qed.

Lemma write_all_ok bs o p e c i l : bs <> [] ->
  write_all bs (Writer o (WOk :: p) e c i l) = (Ok tt, Writer (o ++ bs) p e c i l).
Proof. destruct bs; [contradiction|reflexivity]. Qed.
Lemma write_all_free bs o e c i l : write_all bs (Writer o [] e c i l) = (Ok tt, Writer (o ++ bs) [] e c i l).
Proof. destruct bs; [rewrite app_nil_r|]; reflexivity. Qed.
Lemma write_all_fail bs k o p e c i l : bs <> [] ->
  write_all bs (Writer o (WFail k :: p) e c i l) = (Err IoFailure, Writer (o ++ firstn k bs) p e c i l).
Proof. destruct bs; [contradiction|reflexivity]. Qed.

Lemma nonce_reuse m e k iv p1 p2 :
  seals e k -> 1 <= k <= 2048 -> length iv = 12%nat -> legal_fragment p1 -> legal_fragment p2 -> p1 <> p2 ->
  exists w ops w' c1 c2 l1 l2,
    w_enc w = Some e /\ w_iv w = Some iv /\ w_count w = 0 /\ w_log w = [] /\ w_out w = [] /\
    ops = [OpApp p1; OpApp p2] /\ run_ops m ops w = ([Err IoFailure; Ok tt], w') /\
    w_log w' = [l1; l2] /\ log_nonce l1 = log_nonce l2 /\ log_plain l1 = p1 /\ log_plain l2 = p2 /\
    log_sealed l1 = c1 /\ log_sealed l2 = c2 /\
    w_out w' = removelast (e_record ApplicationDataTy c1) ++ e_record ApplicationDataTy c2.
Proof.
  intros Hs Hk Hiv [H1 H1'] [H2 H2'] Hne.
  set (n := seq_nonce 0 (Some iv)).
  set (a1 := seq_ad 0 ApplicationDataTy x03 x03 (zlen p1)). set (a2 := seq_ad 0 ApplicationDataTy x03 x03 (zlen p2)).
  destruct (Hs n p1 a1) as (c1 & E1 & L1); [apply seq_nonce_length|unfold a1; rewrite seq_ad_rfc; apply rfc_ad_length|exact H1'|].
  destruct (Hs n p2 a2) as (c2 & E2 & L2); [apply seq_nonce_length|unfold a2; rewrite seq_ad_rfc; apply rfc_ad_length|exact H2'|].
  destruct (@exists_last _ c1) as (c1' & b1 & Hc1). { intros ->. rewrite zlen_nil in L1. lia. }
  set (w := Writer [] [WOk; WOk; WOk; WOk; WFail (length c1')] (Some e) 0 (Some iv) []).
  set (r1 := Rec ApplicationDataTy x03 x03 p1). set (r2 := Rec ApplicationDataTy x03 x03 p2).
  set (l1 := (n, p1, a1, c1)). set (l2 := (n, p2, a2, c2)).
  set (w1 := Writer [] [WOk; WOk; WOk; WOk; WFail (length c1')] (Some e) 0 (Some iv) [l1]).
  set (o1 := removelast (e_record ApplicationDataTy c1)).
  set (w2 := Writer o1 [] (Some e) 0 (Some iv) [l1]).
  set (w3 := Writer o1 [] (Some e) 0 (Some iv) [l1; l2]).
  set (w' := Writer (o1 ++ e_record ApplicationDataTy c2) [] (Some e) 1 (Some iv) [l1; l2]).
  assert (P1 : protect r1 w = (Ok c1, w1)).
  { unfold protect, w, r1. cbn [w_enc w_count w_iv rc_fragment rc_type rc_major rc_minor]. fold n a1. rewrite E1. reflexivity. }
  assert (P2 : protect r2 w2 = (Ok c2, w3)).
  { unfold protect, w2, r2. cbn [w_enc w_count w_iv rc_fragment rc_type rc_major rc_minor]. fold n a2. rewrite E2. reflexivity. }
  assert (Ho1 : o1 = [z2b 23; x03; x03] ++ be 2 (zlen c1) ++ c1').
  { unfold o1, e_record, wire. rewrite Hc1 at 2.
    change (z2b (rfc_content_type ApplicationDataTy)) with (z2b 23). rewrite !app_assoc. apply removelast_last. }
  assert (W1 : write_record m r1 w = (Err IoFailure, w2)).
  { unfold r1. erewrite write_record_step; [|exact P1|unfold ENC_RECORD_MAX_LEN; lia].
    unfold header_parts. cbn [rc_type rc_major rc_minor].
    assert (He : emit [[z2b (content_type_code ApplicationDataTy)]; [x03]; [x03]; be 2 (zlen c1); c1] w1 = (Err IoFailure, w2)).
    { unfold emit, mbind, w1. rewrite !write_all_ok by discriminate.
      rewrite write_all_fail by (rewrite Hc1; destruct c1'; discriminate).
      f_equal. unfold w2. f_equal. rewrite Ho1.
      replace (firstn (length c1') c1) with c1'
        by (rewrite Hc1, firstn_app, firstn_all, Nat.sub_diag, firstn_O, app_nil_r; reflexivity).
      rewrite <- !app_assoc. reflexivity. }
    unfold mbind at 1. rewrite He. reflexivity. }
  assert (W2 : write_record m r2 w2 = (Ok tt, w')).
  { unfold r2. erewrite write_record_step; [|exact P2|unfold ENC_RECORD_MAX_LEN; lia].
    unfold header_parts. cbn [rc_type rc_major rc_minor].
    assert (He : exists w4, emit [[z2b (content_type_code ApplicationDataTy)]; [x03]; [x03]; be 2 (zlen c2); c2] w3 = (Ok tt, w4) /\ w_bump m w4 = (Ok tt, w')).
    { eexists. split; [unfold emit, mbind, w3; rewrite !write_all_free; reflexivity|].
      unfold w_bump. cbn [w_count]. rewrite ck_ok by lia. unfold w'. cbn [w_out w_plan w_enc w_iv w_log].
      unfold e_record, wire. rewrite <- !app_assoc. reflexivity. }
    destruct He as (w4 & He & Hb). unfold mbind at 1. rewrite He. exact Hb. }
  assert (D : forall p w, legal_fragment p -> w_enc w = Some e ->
     write_application_data m p w = match write_record m (Rec ApplicationDataTy x03 x03 p) w with (Ok tt, w') => (Ok tt, w') | x => x end).
  { intros p w0 Hp He. unfold write_application_data. rewrite He. unfold write_data.
    assert (Hch : chunks (Z.to_nat RECORD_MAX_LEN) p = [p]).
    { rewrite chunks_cons.
      - rewrite firstn_all2, skipn_all2; [rewrite chunks_nil; reflexivity| |]; unfold legal_fragment, zlen, RECORD_MAX_LEN in *; lia.
      - unfold RECORD_MAX_LEN; lia.
      - destruct Hp. intros ->. rewrite zlen_nil in *. lia. }
    rewrite Hch. cbn [write_fragments]. unfold mbind at 1, mlift. cbn [tls_version fst snd].
    rewrite record_new_legal by exact Hp. unfold mbind, mret. destruct (write_record m _ w0) as [[[]| | |] ?]; reflexivity. }
  assert (Hp1 : legal_fragment p1) by (split; assumption). assert (Hp2 : legal_fragment p2) by (split; assumption).
  exists w, [OpApp p1; OpApp p2], w', c1, c2, l1, l2.
  do 6 (split; [reflexivity|]). split.
  - cbn [run_ops run_op]. rewrite D by (try exact Hp1; reflexivity). fold r1. rewrite W1.
    rewrite D by (try exact Hp2; reflexivity). fold r2. rewrite W2. reflexivity.
  - repeat split.
Qed.
