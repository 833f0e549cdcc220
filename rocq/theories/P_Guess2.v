(** Proofs for C117: how many tries it takes. *)
From Verif Require Export Spec_Guess P_Guess.
From Verif Require Import P_Util P_Aead P_Forge P_Tries P_Repeat.
From Coq Require Import ZifyBool ZifyNat ZifyN.
Local Open Scope list_scope.
Local Open Scope Z_scope.

(** there are [2^128] one-time keys that explain a record *)
Lemma explaining n m ct ad tag : 0 <= n <= 2 ^ 128 -> length tag = 16%nat -> exists ks, NoDup ks /\ Z.of_nat (length ks) = n /\
  Forall (fun k => length k = 32%nat /\ compute_mac m k ct ad = Ok tag) ks.
Proof.
  intros Hn Lt. set (half := fun z : nat => le 16 (Z.of_nat z)).
  set (pad := fun r : bytes => le 16 (le_val tag - poly_acc (clamp (le_val r)) (aead_mac_data ad ct) (nblocks (aead_mac_data ad ct)))).
  exists (map (fun z => half z ++ pad (half z)) (seq 0 (Z.to_nat n))). split; [|split].
  - apply NoDup_map_on; [apply seq_NoDup|]. intros a b Ia Ib E. apply in_seq in Ia. apply in_seq in Ib.
    assert (Lh : forall z, length (half z) = 16%nat) by (intros z; apply le_length).
    destruct (app_cut _ _ _ _ E ltac:(rewrite !Lh; lia)) as (e & X & _). assert (e = []) as ->.
    { apply (f_equal (@length byte)) in X. rewrite app_length, !Lh in X. destruct e; [reflexivity|cbn [length] in X; lia]. }
    rewrite app_nil_r in X. clear E. rename X into E. unfold half in E.
    apply (f_equal le_val) in E. rewrite !le_val_le in E. change (256 ^ Z.of_nat 16) with (2 ^ 128) in E. rewrite !Z.mod_small in E by lia. lia.
  - rewrite map_length, seq_length. lia.
  - apply Forall_forall. intros k I. apply in_map_iff in I as (z & <- & _). assert (Lh : length (half z) = 16%nat) by apply le_length.
    assert (Lp : length (pad (half z)) = 16%nat) by apply le_length. assert (Lk : length (half z ++ pad (half z)) = 32%nat) by (rewrite app_length, Lh, Lp; reflexivity).
    split; [exact Lk|]. rewrite compute_mac_eq by exact Lk. f_equal.
    rewrite firstn_app, skipn_app, Lh, Nat.sub_diag, firstn_all2, skipn_all2 by lia. cbn [firstn skipn app]. rewrite app_nil_r.
    unfold poly1305_mac. apply val16_inj; [apply le_length|exact Lt|]. rewrite le_val_le. unfold pad. rewrite le_val_le. change (256 ^ Z.of_nat 16) with (2 ^ 128).
    set (a := poly_acc _ _ _). rewrite Zplus_mod_idemp_r. replace (a + (le_val tag - a)) with (le_val tag) by ring. apply Z.mod_small, val16, Lt.
Qed.

Lemma passes_iff m k otk a : length otk = 32%nat -> tag_right m k otk a <-> passes k otk a.
Proof.
  intros L. unfold tag_right, passes, a_ad, a_ct, a_tag. cbv zeta. rewrite compute_mac_eq by exact L. split; intros (H & E); (split; [exact H|]).
  - injection E as E. exact E.
  - f_equal. exact E.
Qed.
(** tries of which one is right for every one-time key that explains the record are many *)
Theorem needed : forall m k g attempts, (16 <= length (f_body g))%nat -> zlen (f_body g) <= 18432 -> Forall (fun a => a <> g /\ zlen (f_body a) <= 18432) attempts ->
  (forall otk, length otk = 32%nat -> tag_right m k otk g -> Exists (tag_right m k otk) attempts) -> 2 ^ 92 <= Z.of_nat (length attempts).
Proof.
  intros m k g attempts L G A W.
  destruct (explaining (2 ^ 128) m (a_ct g) (a_ad k g) (a_tag g) ltac:(lia)) as (ks & D & Lk & F).
  { unfold a_tag. rewrite skipn_length. lia. }
  pose proof (many_tries k g attempts ks G A D) as B.
  assert (X : Forall (fun otk => length otk = 32%nat /\ passes k otk g /\ Exists (passes k otk) attempts) ks).
  { eapply Forall_impl; [|exact F]. cbn beta. intros otk (Lo & E). split; [exact Lo|].
    assert (T : tag_right m k otk g) by (split; [exact L|exact E]). split; [apply (passes_iff m); assumption|].
    specialize (W otk Lo T). eapply Exists_impl; [|exact W]. intros a. apply (passes_iff m k otk a Lo). }
  specialize (B X). rewrite Lk in B. change (2 ^ 128) with (2 ^ 36 * 2 ^ 92) in B. apply Z.mul_le_mono_pos_l in B; [exact B|reflexivity].
Qed.
Lemma cut_tag (c t : bytes) : length t = 16%nat -> (length (c ++ t) - 16 = length c)%nat /\ firstn (length c) (c ++ t) = c /\ skipn (length c) (c ++ t) = t.
Proof.
  intros L. rewrite app_length, L. split; [lia|]. rewrite firstn_app, skipn_app, Nat.sub_diag, firstn_all, skipn_all. cbn [firstn skipn]. rewrite app_nil_r. split; reflexivity.
Qed.
Lemma tag_right_with m k otk c t : length t = 16%nat -> tag_right m k otk (with_tag c t) <-> compute_mac m otk c (rfc_ad k ApplicationDataTy x03 x03 (zlen c)) = Ok t.
Proof.
  intros L. unfold tag_right, with_tag. cbn [f_body f_type f_major f_minor]. cbv zeta. destruct (cut_tag c t L) as (E1 & E2 & E3). rewrite E1, E2, E3.
  replace (zlen (c ++ t) - 16) with (zlen c) by (unfold zlen; rewrite app_length, L; lia). rewrite app_length, L. split; [tauto|]. intros H. split; [lia|exact H].
Qed.
Lemma ok_bytes (a b : bytes) : Ok a = Ok b -> a = b.
Proof. intros H. injection H as H. exact H. Qed.
(** and there are such, for every other ciphertext *)
Theorem sufficient : forall m k c t c', length t = 16%nat -> exists attempts, Z.of_nat (length attempts) = 2 ^ 106 /\
  Forall (fun a => exists tag, length tag = 16%nat /\ a = with_tag c' tag) attempts /\
  forall otk, length otk = 32%nat -> tag_right m k otk (with_tag c t) -> Exists (tag_right m k otk) attempts.
Proof.
  intros m k c t c' Lt. set (ad := rfc_ad k ApplicationDataTy x03 x03 (zlen c)). set (ad' := rfc_ad k ApplicationDataTy x03 x03 (zlen c')).
  exists (map (fun x => with_tag c' (moved x ad c t ad' c')) (within clamp_bits)). split; [rewrite map_length, within_length, clamp_ones; reflexivity|]. split.
  - apply Forall_forall. intros a I. apply in_map_iff in I as (x & <- & _). eexists. split; [apply moved_length|reflexivity].
  - intros otk Lo T. apply tag_right_with in T; [|exact Lt]. fold ad in T. rewrite compute_mac_eq in T by exact Lo. apply ok_bytes in T. apply mac_eq in T.
    set (x := clamp (le_val (firstn 16 otk))) in *. set (s := le_val (skipn 16 otk)) in *. apply Exists_exists. exists (with_tag c' (moved x ad c t ad' c')). split.
    + apply in_map_iff. exists x. split; [reflexivity|]. unfold x, clamp. rewrite <- P_Guess.clamp_mask. apply within_all.
    + apply tag_right_with; [apply moved_length|]. fold ad'. rewrite compute_mac_eq by exact Lo. f_equal. unfold poly1305_mac, moved. fold x s. fold (value_at x ad' c'). fold (value_at x ad c) in T.
      apply val16_inj; [apply le_length|apply le_length|]. rewrite !le_val_le. change (256 ^ Z.of_nat 16) with (2 ^ 128).
      pose proof (Z.div_mod (value_at x ad c + s) (2 ^ 128) ltac:(discriminate)) as Dm. rewrite T in Dm.
      replace (value_at x ad' c' + s) with (le_val t - value_at x ad c + value_at x ad' c' + ((value_at x ad c + s) / 2 ^ 128) * 2 ^ 128) by lia. apply Z_mod_plus_full.
Qed.
