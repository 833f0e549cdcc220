(** C102: the same server stream for two runs of the client. *)
From Verif Require Import Spec_Shape P_Util P_Codec P_CodecProps P_RecordW P_RecordR P_Record P_Record2 P_Chacha P_Aead P_Ecdhe P_Client P_Client4 P_Client5 P_Pending P_App2 P_Accept P_Receive P_Build P_Life P_Broken P_Talk3 P_Any P_Shape.
From Coq Require Import ZifyBool ZifyNat ZifyN.
Local Open Scope list_scope.
Local Open Scope Z_scope.
#[local] Opaque SHA256 HMAC aead_seal aead_decrypt aead_encrypt compute_keys PRF nmul.

(** ** Clear records mean the same to every run *)
Lemma guarded_clear pend bs : guarded Release (Reader (source bs) None 0 pend None) Clear pend bs.
Proof. split; [split; [reflexivity|reflexivity]|]. split; [apply source_clean|]. split; [reflexivity|apply source_stream]. Qed.
Lemma room_clear pend bs : room (Reader (source bs) None 0 pend None) = zlen bs.
Proof. unfold room. cbn [r_count r_src]. rewrite source_stream. lia. Qed.
Lemma asks_same pend bs x v p b x' v' p' b' : zlen bs < 2 ^ 64 -> asks Clear pend bs x v p b -> asks Clear pend bs x' v' p' b' -> x = x' /\ p = p' /\ b = b'.
Proof.
  intros R A A'. destruct (asks_sound Release _ _ _ _ _ _ _ A _ (guarded_clear pend bs)) as (r & E & (_ & _ & G1 & G2) & _); [rewrite room_clear; exact R|].
  destruct (asks_sound Release _ _ _ _ _ _ _ A' _ (guarded_clear pend bs)) as (r' & E' & (_ & _ & G1' & G2') & _); [rewrite room_clear; exact R|].
  rewrite E in E'. apply pair_equal_spec in E' as [-> <-]. split; [reflexivity|]. split; congruence.
Qed.
Lemma comes_same pend bs x v p b x' v' p' b' : zlen bs < 2 ^ 64 -> comes Clear pend bs x v p b -> comes Clear pend bs x' v' p' b' -> x = x' /\ p = p' /\ b = b'.
Proof.
  intros R A A'. destruct (comes_sound Release _ _ _ _ _ _ _ A _ (guarded_clear pend bs)) as (r & E & (_ & _ & G1 & G2) & _); [rewrite room_clear; exact R|].
  destruct (comes_sound Release _ _ _ _ _ _ _ A' _ (guarded_clear pend bs)) as (r' & E' & (_ & _ & G1' & G2') & _); [rewrite room_clear; exact R|].
  rewrite E in E'. apply pair_equal_spec in E' as [-> <-]. split; [reflexivity|]. split; congruence.
Qed.
Lemma asks_less pend bs x p b : asks Clear pend bs x Clear p b -> zlen b <= zlen bs.
Proof. intros (y & C & _). apply comes_after in C as (_ & N & _). cbn [number] in N. lia. Qed.
Lemma given_same bs sh certs skx p b sh' certs' skx' p' b' : zlen bs < 2 ^ 64 -> given bs sh certs skx p b -> given bs sh' certs' skx' p' b' ->
  sh = sh' /\ certs = certs' /\ skx = skx' /\ p = p' /\ b = b' /\ zlen b <= zlen bs.
Proof.
  intros R [? ? ? ? ? ? ? [? ? ? ? ? ? [? ? ? A1 _] A2] A3] [? ? ? ? ? ? ? [? ? ? ? ? ? [? ? ? B1 _] B2] B3].
  pose proof (asks_less _ _ _ _ _ A1). pose proof (asks_less _ _ _ _ _ A2). pose proof (asks_less _ _ _ _ _ A3).
  destruct (asks_same _ _ _ _ _ _ _ _ _ _ R A1 B1) as (X & <- & <-). injection X as <-.
  match type of A2 with asks _ _ ?b _ _ _ _ => assert (R2 : zlen b < 2 ^ 64) by lia end. destruct (asks_same _ _ _ _ _ _ _ _ _ _ R2 A2 B2) as (X & <- & <-). injection X as <-.
  match type of A3 with asks _ _ ?b _ _ _ _ => assert (R3 : zlen b < 2 ^ 64) by lia end. destruct (asks_same _ _ _ _ _ _ _ _ _ _ R3 A3 B3) as (X & <- & <-). injection X as <-.
  repeat (split; [reflexivity|]). lia.
Qed.
Lemma passes_same m g bs ss pend rest m' g' ss' pend' rest' : zlen bs < 2 ^ 64 -> passes m g bs ss pend rest -> passes m' g' bs ss' pend' rest' ->
  s_sh ss = s_sh ss' /\ s_certs ss = s_certs ss' /\ s_ske ss = s_ske ss' /\ pend = pend' /\ rest = rest' /\ zlen rest <= zlen bs.
Proof.
  intros R (_ & _ & p3 & b3 & g1 & G & _ & A) (_ & _ & p3' & b3' & g1' & G' & _ & A').
  destruct (given_same _ _ _ _ _ _ _ _ _ _ _ R G G') as (-> & -> & -> & -> & -> & L). pose proof (asks_less _ _ _ _ _ A).
  assert (R3 : zlen b3' < 2 ^ 64) by lia. destruct (asks_same _ _ _ _ _ _ _ _ _ _ R3 A A') as (_ & -> & ->). repeat (split; [reflexivity|]). lia.
Qed.
(** ** The first sealed record *)
Lemma ccs_pending v pend bs v' p b : comes v pend bs (Ok ChangeCipherSpecMessage) v' p b -> incomplete p.
Proof.
  intros C. remember (Ok ChangeCipherSpecMessage) as x eqn:Ex. induction C; try discriminate; auto.
Qed.
Lemma sealed_first key iv k pend bs h v' p b : incomplete pend -> asks (Sealed key iv k) pend bs (Ok h) v' p b ->
  exists maj min f pl more, zlen f <= 18432 /\ bs = wire HandshakeTy maj min f ++ more /\ protects key iv k HandshakeTy maj min pl f.
Proof.
  intros I (y & C & E). destruct y as [[h1| |a|d]| | |]; try discriminate. clear E.
  inversion C as [v0 ty body q bs0 h0 L Hr| | | |? ? ? t pl v1 bs1 x1 _ F K|?|v0 pend0 bs0 pl v1 bs1 x1 v1' pend1' bs1' _ F _ _]; subst.
  - exfalso. apply none_iff in I. refine (whole_some (frame ty body) h1 _ _ I). exists ty, body. auto.
  - inversion K.
  - inversion F as [| | |v2 t maj min f bs2 p2 v2' Lf U| |]; subst. inversion U; subst. eauto 8.
Qed.
Lemma wire_inj2 t maj min (f bs : bytes) t' maj' min' f' bs' : zlen f <= 18432 -> zlen f' <= 18432 -> wire t maj min f ++ bs = wire t' maj' min' f' ++ bs' -> maj = maj' /\ min = min' /\ f = f' /\ bs = bs'.
Proof.
  intros L L' X. assert (Y : wire t x03 x03 f ++ bs = wire t' x03 x03 f' ++ bs' /\ maj = maj' /\ min = min').
  { unfold wire in *. rewrite <- !app_assoc in *. cbn [app] in *. remember (be 2 (zlen f)) as h eqn:Eh. remember (be 2 (zlen f')) as h' eqn:Eh'. injection X as Et E1 E2 X. rewrite Et, X. auto. }
  destruct Y as (Y & -> & ->). apply wire_inj in Y as (_ & -> & ->); auto.
Qed.
Lemma built m g bs st : building m g bs (Ok tt) st -> exists ss pend rest p1 b1 v p b, st = Complete ss /\ passes m g bs ss pend rest /\
  comes Clear pend rest (Ok ChangeCipherSpecMessage) Clear p1 b1 /\ asks (server_cover ss) p1 b1 (Ok (finished (expected_server ss))) v p b.
Proof.
  intros B. inversion B as [|y L F|ss pend rest x v p b P C N E|ss pend rest p1 b1 x y v p b P C A T| |ss pend rest p1 b1 v p b P C A]; subst.
  - exfalso. exact (flight_no_ok _ _ _ _ F eq_refl).
  - exfalso. destruct x as [[]| | |]; try discriminate. congruence.
  - inversion T.
  - exists ss, pend, rest, p1, b1, v, p, b. auto.
Qed.
Theorem accepted_twice m g bs ss m' g' ss' : zlen bs < 2 ^ 64 -> building m g bs (Ok tt) (Complete ss) -> building m' g' bs (Ok tt) (Complete ss') ->
  s_cr ss = firstn 32 g /\ s_cr ss' = firstn 32 g' /\ s_sh ss = s_sh ss' /\ s_certs ss = s_certs ss' /\ s_ske ss = s_ske ss' /\
  exists before maj min f more p p', bs = before ++ wire HandshakeTy maj min f ++ more /\
    protects (k_server (s_keys ss)) (iv_server (s_keys ss)) 0 HandshakeTy maj min p f /\
    protects (k_server (s_keys ss')) (iv_server (s_keys ss')) 0 HandshakeTy maj min p' f.
Proof.
  intros R B B'. apply built in B as (s1 & pend & rest & p1 & b1 & v & p & b & X & P & C & A). injection X as <-.
  apply built in B' as (s1 & pend' & rest' & p1' & b1' & v' & p' & b' & X & P' & C' & A'). injection X as <-.
  split; [apply P|]. split; [apply P'|]. destruct (passes_same _ _ _ _ _ _ _ _ _ _ _ R P P') as (Q1 & Q2 & Q3 & <- & <- & L). split; [exact Q1|]. split; [exact Q2|]. split; [exact Q3|].
  assert (R1 : zlen rest < 2 ^ 64) by lia. destruct (comes_same _ _ _ _ _ _ _ _ _ _ R1 C C') as (_ & <- & <-).
  pose proof (ccs_pending _ _ _ _ _ _ C) as I. destruct (sealed_first _ _ _ _ _ _ _ _ _ I A) as (maj & min & f & pl & more & Lf & E & K). destruct (sealed_first _ _ _ _ _ _ _ _ _ I A') as (maj' & min' & f' & pl' & more' & Lf' & E' & K').
  rewrite E in E'. apply wire_inj2 in E' as (<- & <- & <- & <-); [|assumption..].
  destruct (passes_rest _ _ _ _ _ _ P) as (before & Eb & _). destruct (comes_rest _ _ _ _ _ _ _ C) as (ccs & Ec & _); [eexists; reflexivity|].
  exists (before ++ ccs), maj, min, f, more, pl, pl'. split; [rewrite Eb, Ec, E, <- app_assoc; reflexivity|]. split; assumption.
Qed.
Theorem replay_accepted m s p g c m' s' p' g' c' : healthy (writer_new p) -> healthy (writer_new p') -> clean s -> clean s' -> stream s = stream s' -> zlen (stream s) < 2 ^ 64 ->
  client_new m s p g = (Ok tt, c) -> client_new m' s' p' g' = (Ok tt, c') ->
  exists ss ss', w_out (c_writer c) = stage_out (Complete ss) /\ w_out (c_writer c') = stage_out (Complete ss') /\
    s_cr ss = firstn 32 g /\ s_cr ss' = firstn 32 g' /\ s_sh ss = s_sh ss' /\ s_certs ss = s_certs ss' /\ s_ske ss = s_ske ss' /\
    exists before maj min f more d d', stream s = before ++ wire HandshakeTy maj min f ++ more /\
      protects (k_server (s_keys ss)) (iv_server (s_keys ss)) 0 HandshakeTy maj min d f /\
      protects (k_server (s_keys ss')) (iv_server (s_keys ss')) 0 HandshakeTy maj min d' f.
Proof.
  intros H H' C C' S R E E'. assert (R' : zlen (stream s') < 2 ^ 64) by (rewrite <- S; exact R).
  destruct (proj1 (building_iff m s p g (Ok tt) (w_out (c_writer c)) H C R)) as (st & B & O); [eauto|].
  destruct (proj1 (building_iff m' s' p' g' (Ok tt) (w_out (c_writer c')) H' C' R')) as (st' & B' & O'); [eauto|].
  destruct (built _ _ _ _ B) as (ss & _ & _ & _ & _ & _ & _ & _ & -> & _). destruct (built _ _ _ _ B') as (ss' & _ & _ & _ & _ & _ & _ & _ & -> & _).
  rewrite <- S in B'. exists ss, ss'. unfold all_sent in O, O'. rewrite app_nil_r in O, O'. split; [exact O|]. split; [exact O'|]. exact (accepted_twice _ _ _ _ _ _ _ R B B').
Qed.
(** ** The same tape twice *)
Lemma xor_zip_nth a : forall b i, (i < length a)%nat -> (i < length b)%nat -> nth i (xor_zip a b) x00 = bxor (nth i a x00) (nth i b x00).
Proof. induction a as [|x a IH]; intros [|y b] [|i] La Lb; cbn [length] in *; try lia; cbn [xor_zip nth]; [reflexivity|]. apply IH; lia. Qed.
Theorem seals_cancel key nonce ad ad' p p' : length p = length p' ->
  xor_zip (firstn (length p) (aead_seal key nonce ad p)) (firstn (length p) (aead_seal key nonce ad' p')) = xor_zip p p'.
Proof.
  Transparent aead_seal. intros L. unfold aead_seal. cbv zeta.
  rewrite !firstn_app, !chacha20_encrypt_length. replace (length p - length p)%nat with 0%nat by lia. replace (length p - length p')%nat with 0%nat by lia.
  cbn [firstn]. rewrite !app_nil_r. rewrite !firstn_all2 by (rewrite chacha20_encrypt_length; lia).
  apply (nth_ext _ _ x00 x00).
  - rewrite !xor_zip_length, !chacha20_encrypt_length. reflexivity.
  - intros i Hi. rewrite xor_zip_length, !chacha20_encrypt_length in Hi. rewrite !xor_zip_nth by (rewrite ?chacha20_encrypt_length; lia). rewrite !chacha20_encrypt_nth by lia.
    rewrite (bxor_comm (nth i p' x00)), bxor_assoc, bxor_cancel_r. reflexivity.
Qed.
#[local] Opaque aead_seal.
Theorem tape_twice : exists m s g key iv out d d' c c' l l', sitting m (Do (Write d) (fun _ => Quit)) s [] g = (Ok tt, l, c) /\ sitting m (Do (Write d') (fun _ => Quit)) s [] g = (Ok tt, l', c') /\
  d <> d' /\ w_out (c_writer c) = out ++ sealed_record key iv 1 ApplicationDataTy d /\ w_out (c_writer c') = out ++ sealed_record key iv 1 ApplicationDataTy d'.
Proof.
  destruct (odd_run Release) as (ss & q & A & Q & K).
  assert (R : zlen (odd_stream ss q) + 1 < 2 ^ 64).
  { assert (Lq : zlen q = 12) by (pose proof (fin_shape ss) as Fs; rewrite Q in Fs; apply app_inv_head in Fs; subst q; unfold zlen, expected_server; rewrite verify_data_length; reflexivity).
    pose proof (odd_len ss q A Lq). lia. }
  assert (Es : stretches (source (odd_stream ss q) ++ [RErr]) = [odd_stream ss q; []]) by apply marked_stretches.
  assert (Rs : zlen (concat (stretches (source (odd_stream ss q) ++ [RErr]))) + 1 < 2 ^ 64) by (rewrite Es; cbn [concat]; rewrite app_nil_r; exact R).
  assert (W : forall d, 1 <= zlen d <= 16384 -> exists c, sitting Release (Do (Write d) (fun _ => Quit)) (source (odd_stream ss q) ++ [RErr]) [] one_tape = (Ok tt, [Wrote (Ok (zlen d))], c) /\
    w_out (c_writer c) = stage_out (Complete ss) ++ sealed_record (k_client (s_keys ss)) (iv_client (s_keys ss)) 1 ApplicationDataTy d).
  { intros d L. assert (Sp : 1 + spent (Do (Write d) (fun _ => Quit)) [Wrote (Ok (zlen d))] < 2 ^ 64) by (cbn [spent]; unfold call_cost, Spec_Client.call_cost; lia).
    apply (lifespan_iff Release (Do (Write d) (fun _ => Quit)) (source (odd_stream ss q) ++ [RErr]) [] one_tape (Ok tt) [Wrote (Ok (zlen d))]); [constructor|exact Rs|exact Sp|].
    rewrite Es. eapply Span_led; [exact K|]. rewrite <- (app_nil_r (sealed_record _ _ _ _ _)), <- (app_nil_r (sealed_record _ _ _ _ _)).
    apply (C_write _ _ _ _ d _ _ _ _ _ 1 [d]); [apply P_last; exact L|]. apply C_quit. }
  destruct (W [x61] ltac:(cbn; lia)) as (c & E & O). destruct (W [x62] ltac:(cbn; lia)) as (c' & E' & O').
  exists Release, (source (odd_stream ss q) ++ [RErr]), one_tape, (k_client (s_keys ss)), (iv_client (s_keys ss)), (stage_out (Complete ss)), [x61], [x62], c, c', [Wrote (Ok (zlen [x61]))], [Wrote (Ok (zlen [x62]))].
  split; [exact E|]. split; [exact E'|]. split; [discriminate|]. split; [exact O|exact O'].
Qed.
Lemma once_run m : exists s c, clean s /\ zlen (stream s) < 2 ^ 64 /\ client_new m s [] one_tape = (Ok tt, c).
Proof.
  destruct (odd_run m) as (ss & q & A & Q & K).
  assert (R : zlen (odd_stream ss q) < 2 ^ 64).
  { assert (Lq : zlen q = 12) by (pose proof (fin_shape ss) as Fs; rewrite Q in Fs; apply app_inv_head in Fs; subst q; unfold zlen, expected_server; rewrite verify_data_length; reflexivity).
    pose proof (odd_len ss q A Lq). lia. }
  rewrite <- (source_stream (odd_stream ss q)) in R. rewrite <- (source_stream (odd_stream ss q)) in K at 1.
  destruct (connected_talks m (source (odd_stream ss q)) [] one_tape ss 2 [x63] [] ltac:(constructor) (source_clean _) R K) as (c & E & _).
  exists (source (odd_stream ss q)), c. split; [apply source_clean|]. split; [exact R|exact E].
Qed.
