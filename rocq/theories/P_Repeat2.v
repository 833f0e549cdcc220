(** Proofs for C116: a connection in which it happens. *)
From Verif Require Import Spec_Any P_Util P_Codec P_RecordW P_RecordR P_Record P_Chacha P_Aead P_Client P_Client2 P_App P_App2 P_Client3 P_Client4 P_Ops P_Client5 P_Life P_Any P_Pad P_Pad2 Spec_Repeat P_Repeat.
From Coq Require Import ZifyBool ZifyNat ZifyN.
Local Open Scope list_scope.
Local Open Scope Z_scope.
#[local] Opaque SHA256 HMAC aead_decrypt aead_encrypt compute_keys PRF nmul chacha20_block poly1305_mac.

Lemma last_byte_lost : exists m s p g c c1 c2 key iv part, let d := [x61; x62; x63] in let d2 := [x78; x79; x7a] in client_new m s p g = (Ok tt, c) /\ keyed_w m (c_writer c) key iv 1 /\
  client_write m d c = (Err IoFailure, c1) /\ client_write m d2 c1 = (Ok 3, c2) /\ w_out (c_writer c1) = w_out (c_writer c) ++ part /\ length part = 23%nat.
Proof.
  destruct (plain_run Release (fun _ => [])) as (s & g & ss & c0 & E & _).
  destruct (new_planned Release s g c0 [] E) as (ok0 & out0 & p0 & (l & Sl & _) & _). destruct (paved _ _ Sl) as (n & Pv).
  set (tail := [WOk; WOk; WOk; WOk; WFail 18]). destruct (new_planned Release s g c0 (repeat WOk n ++ tail) E) as (ok & out & p' & (l' & Sl' & G) & N).
  rewrite (sliced_one _ _ Sl _ Sl'), Pv in G. apply pair_equal_spec in G as [G <-]. apply pair_equal_spec in G as [<- <-]. cbv iota in N.
  destruct (connected _ _ _ _ _ N) as (ss' & _ & _ & _ & W & _). set (c := cplan c0 tail (w_out (c_writer c0))) in *.
  assert (P : parcels [x61; x62; x63] [[x61; x62; x63]]) by (apply parcels_small; split; discriminate).
  destruct (write_dispatch Release _ _ 1 [x61; x62; x63] c _ P W ltac:(reflexivity)) as (ok & out & k' & c1 & D & E1 & _ & _ & O1 & W1 & _).
  pose proof (aead_seal_length (k_client (s_keys ss')) (rfc_nonce (iv_client (s_keys ss')) 1) (rfc_ad 1 ApplicationDataTy x03 x03 3) [x61; x62; x63]) as Ls.
  assert (Dv : delivery tail (sealed_record (k_client (s_keys ss')) (iv_client (s_keys ss')) 1 ApplicationDataTy [x61; x62; x63]) false
    ([x17; x03; x03; x00; x13] ++ firstn 18 (aead_seal (k_client (s_keys ss')) (rfc_nonce (iv_client (s_keys ss')) 1) (rfc_ad 1 ApplicationDataTy x03 x03 3) [x61; x62; x63])) []).
  { eexists. split; [apply sealed_sliced; discriminate|]. change (zlen [x61; x62; x63]) with 3. unfold tail. cbn [given_out]. change (be 2 (3 + 16)) with [x00; x13]. cbv iota.
    destruct (aead_seal _ _ _ _) as [|z zs]; [discriminate Ls|]. reflexivity. }
  change (w_plan (c_writer c)) with tail in D.
  destruct (dispatch_one _ _ _ _ _ _ _ _ _ _ (Di_cut _ _ _ _ [] _ _ _ _ Dv) _ _ _ _ D) as (-> & -> & -> & Ep).
  assert (P2 : parcels [x78; x79; x7a] [[x78; x79; x7a]]) by (apply parcels_small; split; discriminate).
  destruct (write_dispatch Release _ _ 1 [x78; x79; x7a] c1 _ P2 W1 ltac:(reflexivity)) as (ok & out & k' & c2 & D2 & E2 & _).
  rewrite Ep in D2. assert (Dv2 : delivery [] (sealed_record (k_client (s_keys ss')) (iv_client (s_keys ss')) 1 ApplicationDataTy [x78; x79; x7a]) true (sealed_record (k_client (s_keys ss')) (iv_client (s_keys ss')) 1 ApplicationDataTy [x78; x79; x7a]) []) by (apply delivery_free; rewrite sealed_len; discriminate).
  destruct (dispatch_one _ _ _ _ _ _ _ _ _ _ (Di_sent _ _ _ _ _ _ _ _ _ _ _ _ _ Dv2 (Di_none _ _ _ _ _)) _ _ _ _ D2) as (-> & _ & _ & _).
  cbn [provided] in E1, E2. eexists Release, s, _, g, c, c1, c2, _, _, _. cbv zeta.
  split; [exact N|]. split; [exact W|]. split; [exact E1|]. split; [exact E2|]. split; [exact O1|].
  rewrite app_length, firstn_length, Ls. reflexivity.
Qed.
Lemma lost_then_closed : exists m s p g c c1 c2 key iv part, let d := [x61; x62; x63] in client_new m s p g = (Ok tt, c) /\ keyed_w m (c_writer c) key iv 1 /\
  client_write m d c = (Err IoFailure, c1) /\ client_close m c1 = (Ok tt, c2) /\ w_out (c_writer c1) = w_out (c_writer c) ++ part /\ length part = 23%nat.
Proof.
  destruct (plain_run Release (fun _ => [])) as (s & g & ss & c0 & E & _).
  destruct (new_planned Release s g c0 [] E) as (ok0 & out0 & p0 & (l & Sl & _) & _). destruct (paved _ _ Sl) as (n & Pv).
  set (tail := [WOk; WOk; WOk; WOk; WFail 18]). destruct (new_planned Release s g c0 (repeat WOk n ++ tail) E) as (ok & out & p' & (l' & Sl' & G) & N).
  rewrite (sliced_one _ _ Sl _ Sl'), Pv in G. apply pair_equal_spec in G as [G <-]. apply pair_equal_spec in G as [<- <-]. cbv iota in N.
  destruct (connected _ _ _ _ _ N) as (ss' & _ & _ & _ & W & _). set (c := cplan c0 tail (w_out (c_writer c0))) in *.
  assert (P : parcels [x61; x62; x63] [[x61; x62; x63]]) by (apply parcels_small; split; discriminate).
  destruct (write_dispatch Release _ _ 1 [x61; x62; x63] c _ P W ltac:(reflexivity)) as (ok & out & k' & c1 & D & E1 & _ & _ & O1 & W1 & _).
  pose proof (aead_seal_length (k_client (s_keys ss')) (rfc_nonce (iv_client (s_keys ss')) 1) (rfc_ad 1 ApplicationDataTy x03 x03 3) [x61; x62; x63]) as Ls.
  assert (Dv : delivery tail (sealed_record (k_client (s_keys ss')) (iv_client (s_keys ss')) 1 ApplicationDataTy [x61; x62; x63]) false
    ([x17; x03; x03; x00; x13] ++ firstn 18 (aead_seal (k_client (s_keys ss')) (rfc_nonce (iv_client (s_keys ss')) 1) (rfc_ad 1 ApplicationDataTy x03 x03 3) [x61; x62; x63])) []).
  { eexists. split; [apply sealed_sliced; discriminate|]. change (zlen [x61; x62; x63]) with 3. unfold tail. cbn [given_out]. change (be 2 (3 + 16)) with [x00; x13]. cbv iota.
    destruct (aead_seal _ _ _ _) as [|z zs]; [discriminate Ls|]. reflexivity. }
  change (w_plan (c_writer c)) with tail in D.
  destruct (dispatch_one _ _ _ _ _ _ _ _ _ _ (Di_cut _ _ _ _ [] _ _ _ _ Dv) _ _ _ _ D) as (-> & -> & -> & Ep).
  destruct (close_dispatch Release _ _ _ c1 W1 ltac:(reflexivity)) as (ok & out & k' & c2 & D2 & E2 & _).
  rewrite Ep in D2. assert (Dv2 : delivery [] (sealed_record (k_client (s_keys ss')) (iv_client (s_keys ss')) 1 AlertTy [x02; x00]) true (sealed_record (k_client (s_keys ss')) (iv_client (s_keys ss')) 1 AlertTy [x02; x00]) []) by (apply delivery_free; rewrite sealed_len; discriminate).
  destruct (dispatch_one _ _ _ _ _ _ _ _ _ _ (Di_sent _ _ _ _ _ _ _ _ _ _ _ _ _ Dv2 (Di_none _ _ _ _ _)) _ _ _ _ D2) as (-> & _ & _ & _).
  cbn [provided] in E1, E2. eexists Release, s, _, g, c, c1, c2, _, _, _. cbv zeta.
  split; [exact N|]. split; [exact W|]. split; [exact E1|]. split; [exact E2|]. split; [exact O1|].
  rewrite app_length, firstn_length, Ls. reflexivity.
Qed.
Theorem forged_record : exists m s p g c d d2 c1 c2 key iv h1 ct1 t1 h2 ct2 t2, client_new m s p g = (Ok tt, c) /\ keyed_w m (c_writer c) key iv 1 /\
  client_write m d c = (Err IoFailure, c1) /\ client_write m d2 c1 = (Ok (zlen d2), c2) /\ length h1 = 5%nat /\ length h2 = 5%nat /\ length ct1 = length d /\ length ct2 = length d2 /\
  w_out (c_writer c1) = w_out (c_writer c) ++ h1 ++ ct1 ++ t1 /\ w_out (c_writer c2) = w_out (c_writer c1) ++ h2 ++ ct2 ++ t2 /\
  let ad1 := rfc_ad 1 ApplicationDataTy x03 x03 (zlen d) in let ad2 := rfc_ad 1 ApplicationDataTy x03 x03 (zlen d2) in
  (forall xs, NoDup xs -> Forall (guess ad1 ct1 t1 ad2 ct2 t2) xs -> Z.of_nat (length xs) <= 2 ^ 22) /\
  exists x p', guess ad1 ct1 t1 ad2 ct2 t2 x /\ p' <> d /\ p' <> d2 /\ p' <> [] /\ let f := swapped ct2 d2 p' in
    sealed_record key iv 1 ApplicationDataTy p' = e_record ApplicationDataTy (f ++ moved x ad2 ct2 t2 (rfc_ad 1 ApplicationDataTy x03 x03 (zlen p')) f).
Proof.
  destruct last_byte_lost as (m & s & p & g & c & c1 & c2 & key & iv & part & N & W & E1 & E2 & O1 & Lp).
  set (d := [x61; x62; x63]) in *. set (d2 := [x78; x79; x7a]) in *.
  destruct (client_repeats m c key iv 1 d d2 c1 c2 part W ltac:(reflexivity) ltac:(split; discriminate) ltac:(split; discriminate) ltac:(discriminate) E1 E2 O1 ltac:(rewrite Lp; cbn; lia))
    as (h1 & ct1 & t1 & h2 & ct2 & t2 & H1 & H2 & C1 & C2 & T1 & T2 & Ep & O2 & B & x & G & A).
  exists m, s, p, g, c, d, d2, c1, c2, key, iv, h1, ct1, t1, h2, ct2, t2. split; [exact N|]. split; [exact W|]. split; [exact E1|]. split; [exact E2|]. split; [exact H1|]. split; [exact H2|]. split; [exact C1|]. split; [exact C2|].
  split; [rewrite O1, Ep; reflexivity|]. split; [rewrite O2, O1, <- app_assoc; reflexivity|]. cbv zeta. split.
  - intros xs Nx F. pose proof (B xs Nx F) as Bx. assert (Lt : zlen t1 = 15).
    { rewrite Ep, !app_length, H1, C1 in Lp. cbn [length d] in Lp. unfold zlen. change (length d) with 3%nat in Lp. lia. }
    rewrite Lt in Bx. exact Bx.
  - exists x, [x79; x6f]. split; [exact G|]. split; [discriminate|]. split; [discriminate|]. split; [discriminate|]. apply A. cbn. lia.
Qed.
