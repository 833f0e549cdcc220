(** Proofs for C116: what a record number that is used twice gives away. *)
From Verif Require Export Spec_Repeat P_Forge.
From Verif Require Import Spec_Any P_Util P_Codec P_RecordW P_RecordR P_Record P_Chacha P_Aead P_Client P_Client2 P_App P_App2 P_Client3 P_Client4 P_Ops P_Client5 P_Life P_Any P_Pad P_Pad2 P_Commit.
From Coq Require Import ZifyBool ZifyNat ZifyN.
Local Open Scope list_scope.
Local Open Scope Z_scope.
#[local] Opaque SHA256 HMAC aead_decrypt aead_encrypt compute_keys PRF nmul chacha20_block.

Lemma zrange_in n z : 0 <= z < n -> In z (map Z.of_nat (seq 0 (Z.to_nat n))).
Proof. intros H. apply in_map_iff. exists (Z.to_nat z). split; [lia|]. apply in_seq. lia. Qed.
Lemma moved_length x ad c t ad' c' : length (moved x ad c t ad' c') = 16%nat.
Proof. apply le_length. Qed.
Lemma mod_le a M : 0 <= a < M -> a mod M = a.
Proof. apply Z.mod_small. Qed.
(** few points explain two ciphertexts *)
Theorem few_points : forall ad1 c1 t1 ad2 c2 t2 xs, (ad1, c1) <> (ad2, c2) -> zlen ad1 < 2 ^ 64 -> zlen c1 < 2 ^ 64 -> zlen ad2 < 2 ^ 64 -> zlen c2 < 2 ^ 64 ->
  (length t1 <= 16)%nat -> length t2 = 16%nat -> NoDup xs -> Forall (guess ad1 c1 t1 ad2 c2 t2) xs ->
  Z.of_nat (length xs) <= 256 ^ (16 - zlen t1) * (8 * Z.max (mac_blocks ad1 c1) (mac_blocks ad2 c2)).
Proof.
  intros ad1 c1 t1 ad2 c2 t2 xs Ne A1 C1 A2 C2 L1 L2 N F. rewrite Forall_forall in F.
  assert (D : aead_mac_data ad2 c2 <> aead_mac_data ad1 c1).
  { intros X. apply aead_mac_data_inj in X as (-> & ->); try assumption. apply Ne. reflexivity. }
  set (n := 256 ^ (16 - zlen t1)). assert (Hn : 0 <= n) by (apply Z.pow_nonneg; lia).
  replace n with (Z.of_nat (length (map Z.of_nat (seq 0 (Z.to_nat n))))) by (rewrite map_length, seq_length; lia).
  apply (fibres Z.eq_dec (fun x => le_val (skipn (length t1) (moved x ad2 c2 t2 ad1 c1)))); [exact N| |].
  - apply Forall_forall. intros x _. apply zrange_in. pose proof (le_val_range (skipn (length t1) (moved x ad2 c2 t2 ad1 c1))) as R.
    unfold zlen in R at 1. rewrite skipn_length, moved_length in R. replace (Z.of_nat (16 - length t1)) with (16 - zlen t1) in R by (unfold zlen; lia). exact R.
  - intros k ys Dy I Fy. rewrite Forall_forall in Fy. rewrite Z.max_comm, <- !nblocks_mac_data, <- Nat2Z.inj_max.
    apply (clamped_bound _ _ (le_val t2) (le_val (t1 ++ le (16 - length t1) k)) ys D Dy). apply Forall_forall. intros x Ix.
    destruct (F x (I x Ix)) as (R & G). specialize (Fy x Ix). cbv beta in Fy. split; [unfold P1305; lia|].
    exists (le_val t2 - value_at x ad2 c2). unfold value_at at 1. split.
    + replace (poly_acc x (aead_mac_data ad2 c2) (nblocks (aead_mac_data ad2 c2)) + (le_val t2 - poly_acc x (aead_mac_data ad2 c2) (nblocks (aead_mac_data ad2 c2)))) with (le_val t2) by ring.
      apply Z.mod_small, val16, L2.
    + apply le16_eq. rewrite <- G at 1. rewrite <- Fy.
      replace (16 - length t1)%nat with (length (skipn (length t1) (moved x ad2 c2 t2 ad1 c1))) by (rewrite skipn_length, moved_length; reflexivity).
      rewrite le_le_val, firstn_skipn. unfold moved. f_equal. unfold value_at. ring.
Qed.
Lemma seal_split key nonce ad p c t : length t = 16%nat -> aead_seal key nonce ad p = c ++ t -> c = chacha20_encrypt key 1 nonce p /\ length c = length p /\
  (value_at (point_of key nonce) ad c + le_val (skipn 16 (poly_key_gen key nonce))) mod 2 ^ 128 = le_val t.
Proof.
  intros Lt E. pose proof (sealing_tag key nonce ad c t (conj Lt (ex_intro _ p E))) as T. apply mac_eq in T.
  unfold aead_seal in E. cbv zeta in E. assert (L : length c = length p).
  { apply (f_equal (@length byte)) in E. rewrite !app_length, chacha20_encrypt_length, poly1305_mac_length, Lt in E. lia. }
  split; [|split; [exact L|exact T]].
  apply (f_equal (firstn (length p))) in E. rewrite !firstn_app, chacha20_encrypt_length, L, Nat.sub_diag in E. cbn [firstn] in E. rewrite !app_nil_r in E.
  rewrite (firstn_all2 c), (firstn_all2 (chacha20_encrypt _ _ _ _)) in E by (rewrite ?chacha20_encrypt_length; lia). symmetry. exact E.
Qed.
Lemma moved_real key nonce ad p c t ad' c' : length t = 16%nat -> aead_seal key nonce ad p = c ++ t ->
  moved (point_of key nonce) ad c t ad' c' = poly1305_mac (aead_mac_data ad' c') (firstn 16 (poly_key_gen key nonce)) (skipn 16 (poly_key_gen key nonce)).
Proof.
  intros Lt E. apply seal_split in E as (_ & _ & T); [|exact Lt]. unfold moved, poly1305_mac. fold (point_of key nonce). fold (value_at (point_of key nonce) ad' c').
  set (a := value_at (point_of key nonce) ad c) in *. set (a' := value_at (point_of key nonce) ad' c'). set (s := le_val (skipn 16 (poly_key_gen key nonce))) in *.
  apply val16_inj; [apply le_length|apply le_length|]. rewrite !le_val_le. change (256 ^ Z.of_nat 16) with (2 ^ 128).
  pose proof (Z.div_mod (a + s) (2 ^ 128) ltac:(discriminate)) as Dm. rewrite T in Dm.
  replace (a' + s) with (le_val t - a + a' + ((a + s) / 2 ^ 128) * 2 ^ 128) by lia. symmetry. apply Z_mod_plus_full.
Qed.
Lemma swapped_real key nonce p p' : (length p' <= length p)%nat -> swapped (chacha20_encrypt key 1 nonce p) p p' = chacha20_encrypt key 1 nonce p'.
Proof.
  intros L. unfold swapped. unfold chacha20_encrypt at 2. apply map_ext_in. intros i I. apply in_seq in I.
  rewrite chacha20_encrypt_nth by lia. set (z := keystream _ _ _ _). rewrite (bxor_comm (nth i p x00) z), bxor_cancel_r. apply bxor_comm.
Qed.
(** the point of the key explains them; with it, anyone seals what they like *)
Theorem anyone_seals : forall key nonce ad1 p1 c1 t1 u ad2 p2 c2 t2, length (t1 ++ u) = 16%nat -> length t2 = 16%nat ->
  aead_seal key nonce ad1 p1 = c1 ++ t1 ++ u -> aead_seal key nonce ad2 p2 = c2 ++ t2 ->
  exists x, guess ad1 c1 t1 ad2 c2 t2 x /\ forall ad' p', (length p' <= length p2)%nat ->
    aead_seal key nonce ad' p' = swapped c2 p2 p' ++ moved x ad2 c2 t2 ad' (swapped c2 p2 p').
Proof.
  intros key nonce ad1 p1 c1 t1 u ad2 p2 c2 t2 L1 L2 E1 E2. exists (point_of key nonce). split.
  - split.
    + unfold point_of. pose proof (val16 (firstn 16 (poly_key_gen key nonce))) as V. rewrite firstn_length, poly_key_gen_length in V. specialize (V eq_refl).
      unfold clamp. rewrite Z.land_comm. apply land_range; lia.
    + rewrite (moved_real key nonce ad2 p2 c2 t2 ad1 c1 L2 E2). rewrite (sealing_tag key nonce ad1 c1 (t1 ++ u) (conj L1 (ex_intro _ p1 E1))).
      rewrite firstn_app, Nat.sub_diag, firstn_all. cbn [firstn]. apply app_nil_r.
  - intros ad' p' L. rewrite (moved_real key nonce ad2 p2 c2 t2 _ _ L2 E2). apply seal_split in E2 as (-> & _ & _); [|exact L2].
    rewrite swapped_real by exact L. reflexivity.
Qed.

(** ** the client *)
Lemma record_split t f : exists h, length h = 5%nat /\ e_record t f = h ++ f.
Proof. exists ([z2b (rfc_content_type t)] ++ [x03] ++ [x03] ++ be 2 (zlen f)). split; [reflexivity|]. unfold e_record, wire. rewrite <- !app_assoc. reflexivity. Qed.
Lemma app_cut {A} (a b c d : list A) : a ++ b = c ++ d -> (length a <= length c)%nat -> exists e, c = a ++ e /\ b = e ++ d.
Proof.
  revert c. induction a as [|x a IH]; intros c E L; [exists c; split; [reflexivity|exact E]|]. destruct c as [|y c]; [cbn in L; lia|].
  cbn [app] in E. injection E as -> E. destruct (IH c E ltac:(cbn in L; lia)) as (e & -> & ->). exists e. split; reflexivity.
Qed.
Theorem client_repeats : forall m c key iv k d d2 c1 c2 part, keyed_w m (c_writer c) key iv k -> k + zlen d + zlen d2 < 2 ^ 64 -> legal_fragment d -> legal_fragment d2 -> d <> d2 ->
  client_write m d c = (Err IoFailure, c1) -> client_write m d2 c1 = (Ok (zlen d2), c2) ->
  w_out (c_writer c1) = w_out (c_writer c) ++ part -> (5 + length d <= length part)%nat ->
  exists h1 ct1 t1 h2 ct2 t2, length h1 = 5%nat /\ length h2 = 5%nat /\ length ct1 = length d /\ length ct2 = length d2 /\ (length t1 <= 16)%nat /\ length t2 = 16%nat /\
    part = h1 ++ ct1 ++ t1 /\ w_out (c_writer c2) = w_out (c_writer c) ++ part ++ h2 ++ ct2 ++ t2 /\
    let ad1 := rfc_ad k ApplicationDataTy x03 x03 (zlen d) in let ad2 := rfc_ad k ApplicationDataTy x03 x03 (zlen d2) in
    (forall xs, NoDup xs -> Forall (guess ad1 ct1 t1 ad2 ct2 t2) xs -> Z.of_nat (length xs) <= 256 ^ (16 - zlen t1) * 2 ^ 14) /\
    exists x, guess ad1 ct1 t1 ad2 ct2 t2 x /\ forall t p, (length p <= length d2)%nat ->
      let f := swapped ct2 d2 p in sealed_record key iv k t p = e_record t (f ++ moved x ad2 ct2 t2 (rfc_ad k t x03 x03 (zlen p)) f).
Proof.
  intros m c key iv k d d2 c1 c2 part K R L L' Ne E1 E2 O1 Lp.
  assert (Z1 : 0 <= zlen d) by apply zlen_nonneg. assert (Z2 : 0 <= zlen d2) by apply zlen_nonneg.
  destruct (write_breaks m c key iv k d K ltac:(lia) _ _ E1) as [X|(_ & a & f & b & part' & u & P & O & K1 & Es)]; [discriminate|].
  assert (Q : a ++ f :: b = [d]) by (apply parcels_iff in P; rewrite P; symmetry; apply parcels_iff, parcels_small; exact L).
  destruct a as [|a0 a]; [|destruct a; discriminate Q]. cbn [app] in Q. assert (f = d /\ b = []) as [-> ->] by (split; congruence). cbn [sealed_stream app] in O. change (zlen (@nil bytes)) with 0 in *. rewrite Z.add_0_r in *.
  rewrite O1 in O. apply app_inv_head in O. subst part'.
  destruct (write_dispatch m key iv k d2 c1 [d2] ltac:(apply parcels_small; exact L') K1 ltac:(lia)) as (ok & out & k' & c' & D & E' & _ & _ & O' & _). rewrite E2 in E'. apply pair_equal_spec in E' as [E' ->].
  destruct ok; [|discriminate E']. destruct (dispatch_all _ _ _ _ _ _ _ _ _ _ D eq_refl) as [-> _]. cbn [sealed_stream] in O'. rewrite app_nil_r in O'.
  set (ad1 := rfc_ad k ApplicationDataTy x03 x03 (zlen d)). set (ad2 := rfc_ad k ApplicationDataTy x03 x03 (zlen d2)).
  unfold sealed_record in Es, O'. fold ad1 in Es. fold ad2 in O'.
  destruct (record_split ApplicationDataTy (aead_seal key (rfc_nonce iv k) ad1 d)) as (h1 & Lh1 & H1). destruct (record_split ApplicationDataTy (aead_seal key (rfc_nonce iv k) ad2 d2)) as (h2 & Lh2 & H2).
  rewrite H1 in Es. rewrite H2 in O'.
  destruct (app_cut _ _ _ _ Es ltac:(lia)) as (e & -> & Es1). rewrite app_length in Lp.
  set (ct1 := chacha20_encrypt key 1 (rfc_nonce iv k) d). set (ct2 := chacha20_encrypt key 1 (rfc_nonce iv k) d2).
  assert (S1 : exists g1, aead_seal key (rfc_nonce iv k) ad1 d = ct1 ++ g1 /\ length g1 = 16%nat) by (eexists; split; [reflexivity|apply poly1305_mac_length]).
  assert (S2 : exists g2, aead_seal key (rfc_nonce iv k) ad2 d2 = ct2 ++ g2 /\ length g2 = 16%nat) by (eexists; split; [reflexivity|apply poly1305_mac_length]).
  destruct S1 as (g1 & S1 & G1). destruct S2 as (t2 & S2 & G2). rewrite S1 in Es1. rewrite S2 in O'.
  assert (Lc1 : length ct1 = length d) by apply chacha20_encrypt_length. assert (Lc2 : length ct2 = length d2) by apply chacha20_encrypt_length.
  destruct (app_cut _ _ _ _ Es1 ltac:(lia)) as (t1 & -> & ->).
  exists h1, ct1, t1, h2, ct2, t2. split; [exact Lh1|]. split; [exact Lh2|]. split; [exact Lc1|]. split; [exact Lc2|].
  rewrite app_length in G1. split; [lia|]. split; [exact G2|]. split; [reflexivity|]. split; [rewrite O', O1, <- !app_assoc; reflexivity|]. cbv zeta.
  assert (A1 : zlen ad1 = 13) by reflexivity. assert (A2 : zlen ad2 = 13) by reflexivity.
  assert (B1 : zlen ct1 <= 18432) by (unfold legal_fragment, zlen in *; lia). assert (B2 : zlen ct2 <= 18432) by (unfold legal_fragment, zlen in *; lia).
  assert (Nc : (ad1, ct1) <> (ad2, ct2)).
  { intros X. apply Ne. apply pair_equal_spec in X as [_ X]. assert (Ld : length d = length d2) by (rewrite <- Lc1, <- Lc2, X; reflexivity).
    apply (nth_ext _ _ x00 x00 Ld). intros i I.
    assert (Y : nth i ct1 x00 = nth i ct2 x00) by (rewrite X; reflexivity).
    unfold ct1, ct2 in Y. rewrite !chacha20_encrypt_nth in Y by lia. rewrite (bxor_comm (nth i d x00)), (bxor_comm (nth i d2 x00)) in Y.
    set (z := keystream _ _ _ _) in Y. apply (f_equal (bxor z)) in Y. rewrite !bxor_cancel_l in Y. exact Y. }
  split.
  - intros xs N F. pose proof (few_points ad1 ct1 t1 ad2 ct2 t2 xs Nc ltac:(lia) ltac:(lia) ltac:(lia) ltac:(lia) ltac:(lia) G2 N F) as B.
    pose proof (record_blocks ad1 ct1 A1 B1). pose proof (record_blocks ad2 ct2 A2 B2). etransitivity; [exact B|]. apply Z.mul_le_mono_nonneg_l; [apply Z.pow_nonneg; lia|]. change (2 ^ 14) with 16384. lia.
  - assert (G1' : length (t1 ++ u) = 16%nat) by (rewrite app_length; exact G1).
    destruct (anyone_seals key (rfc_nonce iv k) ad1 d ct1 t1 u ad2 d2 ct2 t2 G1' G2 S1 S2) as (x & G & A). exists x. split; [exact G|].
    intros t p Lpp. unfold sealed_record. rewrite A by exact Lpp. reflexivity.
Qed.
(** the same if the application closes the connection: the data of the second record is known to all *)
Theorem close_repeats : forall m c key iv k d c1 c2 part, keyed_w m (c_writer c) key iv k -> k + zlen d + 1 < 2 ^ 64 -> legal_fragment d ->
  client_write m d c = (Err IoFailure, c1) -> client_close m c1 = (Ok tt, c2) ->
  w_out (c_writer c1) = w_out (c_writer c) ++ part -> (5 + length d <= length part)%nat ->
  exists h1 ct1 t1 h2 ct2 t2, length h1 = 5%nat /\ length h2 = 5%nat /\ length ct1 = length d /\ length ct2 = 2%nat /\ (length t1 <= 16)%nat /\ length t2 = 16%nat /\
    part = h1 ++ ct1 ++ t1 /\ w_out (c_writer c2) = w_out (c_writer c) ++ part ++ h2 ++ ct2 ++ t2 /\
    let ad1 := rfc_ad k ApplicationDataTy x03 x03 (zlen d) in let ad2 := rfc_ad k AlertTy x03 x03 2 in
    (forall xs, NoDup xs -> Forall (guess ad1 ct1 t1 ad2 ct2 t2) xs -> Z.of_nat (length xs) <= 256 ^ (16 - zlen t1) * 2 ^ 14) /\
    exists x, guess ad1 ct1 t1 ad2 ct2 t2 x /\ forall t p, (length p <= 2)%nat ->
      let f := swapped ct2 [x02; x00] p in sealed_record key iv k t p = e_record t (f ++ moved x ad2 ct2 t2 (rfc_ad k t x03 x03 (zlen p)) f).
Proof.
  intros m c key iv k d c1 c2 part K R L E1 E2 O1 Lp.
  assert (Z1 : 0 <= zlen d) by apply zlen_nonneg.
  destruct (write_breaks m c key iv k d K ltac:(lia) _ _ E1) as [X|(_ & a & f & b & part' & u & P & O & K1 & Es)]; [discriminate|].
  assert (Q : a ++ f :: b = [d]) by (apply parcels_iff in P; rewrite P; symmetry; apply parcels_iff, parcels_small; exact L).
  destruct a as [|a0 a]; [|destruct a; discriminate Q]. cbn [app] in Q. assert (f = d /\ b = []) as [-> ->] by (split; congruence). cbn [sealed_stream app] in O. change (zlen (@nil bytes)) with 0 in *. rewrite Z.add_0_r in *.
  rewrite O1 in O. apply app_inv_head in O. subst part'.
  destruct (close_dispatch m key iv k c1 K1 ltac:(lia)) as (ok & out & k' & c' & D & E' & _ & _ & O' & _). rewrite E2 in E'. apply pair_equal_spec in E' as [E' ->].
  destruct ok; [|discriminate E']. destruct (dispatch_all _ _ _ _ _ _ _ _ _ _ D eq_refl) as [-> _]. cbn [sealed_stream] in O'. rewrite app_nil_r in O'.
  set (ad1 := rfc_ad k ApplicationDataTy x03 x03 (zlen d)). set (ad2 := rfc_ad k AlertTy x03 x03 2). set (d2 := [x02; x00]) in *.
  unfold sealed_record in Es, O'. fold ad1 in Es. change (rfc_ad k AlertTy x03 x03 (zlen d2)) with ad2 in O'.
  destruct (record_split ApplicationDataTy (aead_seal key (rfc_nonce iv k) ad1 d)) as (h1 & Lh1 & H1). destruct (record_split AlertTy (aead_seal key (rfc_nonce iv k) ad2 d2)) as (h2 & Lh2 & H2).
  rewrite H1 in Es. rewrite H2 in O'.
  destruct (app_cut _ _ _ _ Es ltac:(lia)) as (e & -> & Es1). rewrite app_length in Lp.
  set (ct1 := chacha20_encrypt key 1 (rfc_nonce iv k) d). set (ct2 := chacha20_encrypt key 1 (rfc_nonce iv k) d2).
  assert (S1 : exists g1, aead_seal key (rfc_nonce iv k) ad1 d = ct1 ++ g1 /\ length g1 = 16%nat) by (eexists; split; [reflexivity|apply poly1305_mac_length]).
  assert (S2 : exists g2, aead_seal key (rfc_nonce iv k) ad2 d2 = ct2 ++ g2 /\ length g2 = 16%nat) by (eexists; split; [reflexivity|apply poly1305_mac_length]).
  destruct S1 as (g1 & S1 & G1). destruct S2 as (t2 & S2 & G2). rewrite S1 in Es1. rewrite S2 in O'.
  assert (Lc1 : length ct1 = length d) by apply chacha20_encrypt_length. assert (Lc2 : length ct2 = 2%nat) by apply chacha20_encrypt_length.
  destruct (app_cut _ _ _ _ Es1 ltac:(lia)) as (t1 & -> & ->).
  exists h1, ct1, t1, h2, ct2, t2. split; [exact Lh1|]. split; [exact Lh2|]. split; [exact Lc1|]. split; [exact Lc2|].
  rewrite app_length in G1. split; [lia|]. split; [exact G2|]. split; [reflexivity|]. split; [rewrite O', O1, <- !app_assoc; reflexivity|]. cbv zeta.
  assert (A1 : zlen ad1 = 13) by reflexivity. assert (A2 : zlen ad2 = 13) by reflexivity.
  assert (B1 : zlen ct1 <= 18432) by (unfold legal_fragment, zlen in *; lia). assert (B2 : zlen ct2 <= 18432) by (unfold legal_fragment, zlen in *; lia).
  assert (Nc : (ad1, ct1) <> (ad2, ct2)).
  { intros X. apply pair_equal_spec in X as [X _]. apply (f_equal (fun l => nth 8 l x00)) in X. discriminate X. }
  split.
  - intros xs N F. pose proof (few_points ad1 ct1 t1 ad2 ct2 t2 xs Nc ltac:(lia) ltac:(lia) ltac:(lia) ltac:(lia) ltac:(lia) G2 N F) as B.
    pose proof (record_blocks ad1 ct1 A1 B1). pose proof (record_blocks ad2 ct2 A2 B2). etransitivity; [exact B|]. apply Z.mul_le_mono_nonneg_l; [apply Z.pow_nonneg; lia|]. change (2 ^ 14) with 16384. lia.
  - assert (G1' : length (t1 ++ u) = 16%nat) by (rewrite app_length; exact G1).
    destruct (anyone_seals key (rfc_nonce iv k) ad1 d ct1 t1 u ad2 d2 ct2 t2 G1' G2 S1 S2) as (x & G & A). exists x. split; [exact G|].
    intros t p Lpp. unfold sealed_record. rewrite A by exact Lpp. reflexivity.
Qed.
