(** C106: a record number that is used twice. *)
From Verif Require Import Spec_Pad Spec_Any P_Util P_Codec P_RecordW P_RecordR P_Record P_Chacha P_Aead P_Client P_Client2 P_App P_App2 P_Client3 P_Client4 P_Ops P_Client5 P_Life P_Any P_Pad.
From Coq Require Import ZifyBool ZifyNat ZifyN.
Local Open Scope list_scope.
Local Open Scope Z_scope.
#[local] Opaque SHA256 HMAC aead_decrypt aead_encrypt compute_keys PRF nmul chacha20_block poly1305_mac.

Lemma masked_nth B n d i : (i < length d)%nat -> nth i (masked B n d) x00 = bxor (nth i d x00) (B n (64 + i)%nat).
Proof.
  intros H. unfold masked. rewrite (nth_indep _ x00 (bxor (nth 0 d x00) (B n (64 + 0)%nat))) by (rewrite map_length, seq_length; exact H).
  rewrite (map_nth (fun i => bxor (nth i d x00) (B n (64 + i)%nat))), seq_nth by exact H. reflexivity.
Qed.
Lemma seal_nth B n a d i : (i < length d)%nat -> nth i (seal_by B n a d) x00 = bxor (nth i d x00) (B n (64 + i)%nat).
Proof. intros H. unfold seal_by. rewrite app_nth1 by (rewrite masked_length; exact H). apply masked_nth. exact H. Qed.
(** two records under one number: the difference of the ciphertexts is that of the data, whatever the key stream *)
Theorem reused B n a a' d d' i : (i < length d)%nat -> (i < length d')%nat ->
  bxor (nth i (seal_by B n a d) x00) (nth i (seal_by B n a' d') x00) = bxor (nth i d x00) (nth i d' x00).
Proof.
  intros H H'. rewrite !seal_nth by assumption. set (z := B n _). rewrite (bxor_comm (nth i d' x00)), bxor_assoc, bxor_cancel_r. reflexivity.
Qed.
Lemma record_nth t f i : nth (5 + i) (e_record t f) x00 = nth i f x00.
Proof. unfold e_record, wire. cbn [app nth Nat.add]. rewrite app_nth2; rewrite be_length; [f_equal; lia|lia]. Qed.
Theorem close_reveals m c key iv k d c1 c2 : keyed_w m (c_writer c) key iv k -> k + zlen d + 1 < 2 ^ 64 -> legal_fragment d ->
  client_write m d c = (Err IoFailure, c1) -> client_close m c1 = (Ok tt, c2) ->
  exists part h, w_out (c_writer c2) = w_out (c_writer c) ++ part ++ e_record AlertTy h /\ zlen h = 18 /\
    forall i, (i < 2)%nat -> (i < length d)%nat -> (5 + i < length part)%nat ->
      nth i d x00 = bxor (bxor (nth (5 + i) part x00) (nth i h x00)) (nth i [x02; x00] x00).
Proof.
  intros K R L E1 E2. destruct (write_breaks m c key iv k d K ltac:(lia) _ _ E1) as [X|(_ & a & f & b & part & u & P & O & K1 & Es)]; [discriminate|].
  assert (Q : a ++ f :: b = [d]) by (apply parcels_iff in P; rewrite P; symmetry; apply parcels_iff, parcels_small; exact L).
  destruct a as [|a0 a]; [|destruct a; discriminate Q]. cbn [app] in Q. assert (f = d /\ b = []) as [-> ->] by (split; congruence). cbn [sealed_stream app] in O. change (zlen (@nil bytes)) with 0 in *. rewrite Z.add_0_r in *.
  destruct (close_dispatch m key iv k c1 K1 ltac:(unfold legal_fragment in L; lia)) as (ok & out & k' & c' & D & E' & _ & _ & O' & _). rewrite E2 in E'. apply pair_equal_spec in E' as [E' ->].
  destruct ok; [|discriminate E']. destruct (dispatch_all _ _ _ _ _ _ _ _ _ _ D eq_refl) as [-> _]. cbn [sealed_stream] in O'. rewrite app_nil_r in O'.
  exists part, (aead_seal key (rfc_nonce iv k) (rfc_ad k AlertTy x03 x03 2) [x02; x00]). split; [rewrite O', O, <- app_assoc; reflexivity|]. split; [rewrite sealed_len; reflexivity|].
  intros i I1 I2 I3. rewrite <- (app_nth1 part u x00 I3), <- Es. unfold sealed_record. rewrite record_nth, !seal_chacha, reused by (exact I2 || exact I1).
  rewrite bxor_cancel_r. reflexivity.
Qed.
Lemma paved bs l : sliced bs l -> exists n, forall p, given_out (repeat WOk n ++ p) l = (true, bs, p).
Proof.
  intros S. apply sliced_concat in S. subst bs. induction l as [|[|s0 s] l (n & IH)].
  - exists 0%nat. reflexivity.
  - exists n. exact IH.
  - exists (S n). intros p. cbn [repeat app given_out concat]. rewrite IH. reflexivity.
Qed.
Lemma sealed_sliced key iv k t f : zlen f <= 16384 -> sliced (sealed_record key iv k t f) ([z2b (rfc_content_type t)] :: [x03] :: [x03] :: be 2 (zlen f + 16) :: aead_seal key (rfc_nonce iv k) (rfc_ad k t x03 x03 (zlen f)) f :: []).
Proof.
  intros L. unfold sealed_record, e_record. rewrite <- (app_nil_r (wire _ _ _ _)), <- sealed_len with (key := key) (n := rfc_nonce iv k) (a := rfc_ad k t x03 x03 (zlen f)).
  constructor; [rewrite sealed_len; lia|constructor].
Qed.
(** a connection whose transport fails in the middle of a record, and then does not *)
Theorem reveals_first : exists m s p g c d c1 c2 before part h, client_new m s p g = (Ok tt, c) /\ client_write m d c = (Err IoFailure, c1) /\ client_close m c1 = (Ok tt, c2) /\
  w_out (c_writer c2) = before ++ part ++ e_record AlertTy h /\ before = w_out (c_writer c) /\ (7 <= length part)%nat /\
  firstn 2 d = [bxor (bxor (nth 5 part x00) (nth 0 h x00)) x02; bxor (nth 6 part x00) (nth 1 h x00)] /\ (2 < length d)%nat.
Proof.
  destruct (plain_run Release (fun _ => [])) as (s & g & ss & c0 & E & _).
  destruct (new_planned Release s g c0 [] E) as (ok0 & out0 & p0 & (l & Sl & _) & _). destruct (paved _ _ Sl) as (n & Pv).
  set (tail := [WOk; WOk; WOk; WOk; WFail 10]). destruct (new_planned Release s g c0 (repeat WOk n ++ tail) E) as (ok & out & p' & (l' & Sl' & G) & N).
  rewrite (sliced_one _ _ Sl _ Sl'), Pv in G. apply pair_equal_spec in G as [G <-]. apply pair_equal_spec in G as [<- <-]. cbv iota in N.
  destruct (connected _ _ _ _ _ N) as (ss' & _ & _ & _ & W & _). set (c := cplan c0 tail (w_out (c_writer c0))) in *.
  assert (P : parcels [x61; x62; x63] [[x61; x62; x63]]) by (apply parcels_small; split; discriminate).
  destruct (write_dispatch Release _ _ 1 [x61; x62; x63] c _ P W ltac:(reflexivity)) as (ok & out & k' & c1 & D & E1 & _ & _ & O1 & W1 & _).
  assert (Dv : delivery tail (sealed_record (k_client (s_keys ss')) (iv_client (s_keys ss')) 1 ApplicationDataTy [x61; x62; x63]) false
    ([x17; x03; x03; x00; x13] ++ firstn 10 (aead_seal (k_client (s_keys ss')) (rfc_nonce (iv_client (s_keys ss')) 1) (rfc_ad 1 ApplicationDataTy x03 x03 3) [x61; x62; x63])) []).
  { eexists. split; [apply sealed_sliced; discriminate|]. change (zlen [x61; x62; x63]) with 3. unfold tail. cbn [given_out]. change (be 2 (3 + 16)) with [x00; x13]. cbv iota.
    pose proof (sealed_len (k_client (s_keys ss')) (rfc_nonce (iv_client (s_keys ss')) 1) (rfc_ad 1 ApplicationDataTy x03 x03 3) [x61; x62; x63]) as Ls.
    destruct (aead_seal _ _ _ _) as [|z zs]; [discriminate Ls|]. reflexivity. }
  change (w_plan (c_writer c)) with tail in D.
  destruct (dispatch_one _ _ _ _ _ _ _ _ _ _ (Di_cut _ _ _ _ [] _ _ _ _ Dv) _ _ _ _ D) as (-> & -> & -> & Ep).
  destruct (close_dispatch Release _ _ _ c1 W1 ltac:(reflexivity)) as (ok & out & k' & c2 & D2 & E2 & _).
  rewrite Ep in D2. assert (Dv2 : delivery [] (sealed_record (k_client (s_keys ss')) (iv_client (s_keys ss')) 1 AlertTy [x02; x00]) true (sealed_record (k_client (s_keys ss')) (iv_client (s_keys ss')) 1 AlertTy [x02; x00]) []) by (apply delivery_free; rewrite sealed_len; discriminate).
  destruct (dispatch_one _ _ _ _ _ _ _ _ _ _ (Di_sent _ _ _ _ _ _ _ _ _ _ _ _ _ Dv2 (Di_none _ _ _ _ _)) _ _ _ _ D2) as (-> & _ & _ & _).
  cbn [provided] in E1, E2.
  destruct (close_reveals Release c _ _ 1 [x61; x62; x63] c1 c2 W ltac:(reflexivity) ltac:(split; discriminate) E1 E2) as (part & h & O & Lh & Rv).
  exists Release, s, (repeat WOk n ++ tail), g, c, [x61; x62; x63], c1, c2, (w_out (c_writer c)), part, h. split; [exact N|]. split; [exact E1|]. split; [exact E2|]. split; [exact O|]. split; [reflexivity|].
  assert (Lp : (7 <= length part)%nat).
  { destruct (close_dispatch Release _ _ _ c1 W1 ltac:(reflexivity)) as (ok & out3 & k3 & c3 & D3 & E3 & _ & _ & O3 & _). rewrite E2 in E3. apply pair_equal_spec in E3 as [E3 <-].
    destruct ok; [|discriminate E3]. destruct (dispatch_all _ _ _ _ _ _ _ _ _ _ D3 eq_refl) as [-> _]. rewrite O1, O, <- app_assoc in O3. apply app_inv_head in O3.
    apply (f_equal (@length byte)) in O3. revert O3. cbn [sealed_stream]. rewrite !app_length, P_Talk3.sealed_length, firstn_length.
    pose proof (sealed_len (k_client (s_keys ss')) (rfc_nonce (iv_client (s_keys ss')) 1) (rfc_ad 1 ApplicationDataTy x03 x03 3) [x61; x62; x63]) as Ls.
    unfold e_record, wire. rewrite !app_length, be_length. unfold zlen in *. cbn [length] in *. lia. }
  split; [exact Lp|]. split; [|cbn; lia]. pose proof (Rv 0%nat ltac:(lia) ltac:(cbn; lia) ltac:(lia)) as R0. pose proof (Rv 1%nat ltac:(lia) ltac:(cbn; lia) ltac:(lia)) as R1.
  cbn [nth Nat.add] in R0, R1. rewrite bxor_0_r in R1. cbn [firstn]. rewrite R0, R1 at 1. reflexivity.
Qed.
Lemma hidden_case m : exists s g c as_ c1 as' c2, let l := [Write [x61; x62; x63]; Close] in let l' := [Write [x78; x79; x7a]; Close] in
  client_new m s [] g = (Ok tt, c) /\ 1 + cost l < 2 ^ 64 /\ same_size l l' /\ calls m l c = (as_, c1) /\ Forall2 good_answer l as_ /\ calls m l' c = (as', c2) /\ Forall2 good_answer l' as'.
Proof.
  destruct (plain_run m (fun _ => [])) as (s & g & ss & c & E & _).
  destruct (calls m [Write [x61; x62; x63]; Close] c) as [as_ c1] eqn:C. destruct (calls m [Write [x78; x79; x7a]; Close] c) as [as' c2] eqn:C'.
  exists s, g, c, as_, c1, as', c2. cbv zeta. split; [exact E|]. split; [reflexivity|]. split; [constructor; [reflexivity|constructor; [exact I|constructor]]|].
  split; [exact C|]. split; [apply (proj1 (connected_emit m s [] g c _ _ _ E (eq_refl : 1 + cost [Write [x61; x62; x63]; Close] < 2 ^ 64) C)); constructor|]. split; [exact C'|].
  apply (proj1 (connected_emit m s [] g c _ _ _ E (eq_refl : 1 + cost [Write [x78; x79; x7a]; Close] < 2 ^ 64) C')); constructor.
Qed.
