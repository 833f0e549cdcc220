(** Proofs for C112. *)
From Verif Require Export Spec_Api Spec_Origin P_Collide P_Collide2 P_Prf P_Client P_Client2 P_Api.
From Coq Require Import ZifyBool ZifyNat ZifyN.
Import String.StringSyntax.
Local Open Scope string_scope.
Local Open Scope list_scope.
Local Open Scope Z_scope.
#[local] Opaque SHA256 HMAC.

Lemma HMAC_meets K a K' b : (length K <= 64)%nat -> length K = length K' -> zlen a + 64 < 2 ^ 61 -> zlen b + 64 < 2 ^ 61 ->
  HMAC K a = HMAC K' b -> (K = K' /\ a = b) \/ hmac_meets K a K' b.
Proof.
  intros L E La Lb H.
  destruct (list_eq_dec Byte.byte_eq_dec K K') as [Ek|Nk].
  - destruct (list_eq_dec Byte.byte_eq_dec a b) as [Ea|Na]; [left; auto|right].
    apply (hmac_collides Debug K a K' b (HMAC K a)); [exact L|exact E|exact La|exact Lb|congruence|apply hmac_spec; lia|rewrite H; apply hmac_spec; lia].
  - right. apply (hmac_collides Debug K a K' b (HMAC K a)); [exact L|exact E|exact La|exact Lb|congruence|apply hmac_spec; lia|rewrite H; apply hmac_spec; lia].
Qed.
Lemma A_length secret seed i : (0 < i)%nat -> length (A_ secret seed i) = 32%nat.
Proof. destruct i; [lia|]. intros _. cbn [A_]. apply HMAC_length. Qed.
Lemma PRF_block secret label seed n i : (32 * i + 32 <= n)%nat ->
  firstn 32 (skipn (32 * i) (PRF secret label seed n)) = HMAC secret (prf_text secret (ascii label ++ seed) (S i)).
Proof.
  intros H. rewrite PRF_pslice, skipn_pslice, firstn_pslice by lia. apply pslice_block.
Qed.
Lemma texts_equal secret seed i secret' seed' j : (0 < i)%nat -> (0 < j)%nat -> prf_text secret seed i = prf_text secret' seed' j ->
  A_ secret seed i = A_ secret' seed' j /\ seed = seed'.
Proof. intros Hi Hj E. unfold prf_text in E. apply app_inj_length in E; [exact E|]. rewrite !A_length by assumption. reflexivity. Qed.
Lemma text_short secret seed i : (0 < i)%nat -> length seed = 77%nat -> zlen (prf_text secret seed i) + 64 < 2 ^ 61.
Proof. intros Hi L. unfold prf_text, zlen. rewrite app_length, A_length, L by exact Hi. lia. Qed.
Lemma seed_lengths s : good_session s -> length (master_seed s) = 77%nat /\ length (block_seed s) = 77%nat.
Proof. intros (L1 & L2 & _). unfold master_seed, block_seed. rewrite !app_length, L1, L2. split; reflexivity. Qed.

Lemma block_origin s t i j : good_session s -> good_session t -> (0 < i)%nat -> (0 < j)%nat ->
  HMAC (s_master s) (prf_text (s_master s) (block_seed s) i) = HMAC (s_master t) (prf_text (s_master t) (block_seed t) j) ->
  (s_master s = s_master t /\ A_ (s_master s) (block_seed s) i = A_ (s_master t) (block_seed t) j /\ s_cr s = s_cr t /\ sh_random (s_sh s) = sh_random (s_sh t)) \/ blocks_meet s i t j.
Proof.
  intros G G' Hi Hj E. destruct (seed_lengths s G) as (_ & L). destruct (seed_lengths t G') as (_ & L').
  apply HMAC_meets in E; [|rewrite master_length; lia|rewrite !master_length; reflexivity|apply text_short; assumption|apply text_short; assumption].
  destruct E as [(E1 & E2)|E]; [left|right; exact E]. split; [exact E1|].
  apply texts_equal in E2; [|exact Hi|exact Hj]. destruct E2 as (E2 & E3). split; [exact E2|].
  unfold block_seed in E3. apply app_inv_head in E3. destruct G as (_ & R1 & _), G' as (_ & R2 & _).
  apply app_inj_length in E3; [|rewrite R1, R2; reflexivity]. destruct E3. auto.
Qed.
Lemma master_origin s t : good_session s -> good_session t -> s_master s = s_master t -> same_origin s t \/ masters_meet s t.
Proof.
  intros G G' E. destruct (seed_lengths s G) as (L & _). destruct (seed_lengths t G') as (L' & _).
  destruct G as (C1 & R1 & P1 & _), G' as (C2 & R2 & P2 & _).
  apply (f_equal (fun b => firstn 32 (skipn (32 * 0) b))) in E. unfold s_master, master_secret in E.
  rewrite !PRF_block in E by lia. fold (master_seed s) (master_seed t) in E.
  apply HMAC_meets in E; [|lia|congruence|apply text_short; [lia|exact L]|apply text_short; [lia|exact L']].
  destruct E as [(E1 & E2)|E]; [left|right; exact E].
  apply texts_equal in E2; [|lia..]. destruct E2 as (_ & E3). unfold master_seed in E3. apply app_inv_head in E3.
  apply app_inj_length in E3; [|congruence]. split; [exact E1|exact E3].
Qed.
Lemma client_key_block s : k_client (s_keys s) = HMAC (s_master s) (prf_text (s_master s) (block_seed s) 1).
Proof. unfold s_keys, key_block. cbn [k_client]. exact (PRF_block (s_master s) "key expansion" (sh_random (s_sh s) ++ s_cr s) 88 0 ltac:(lia)). Qed.
Lemma server_key_block s : k_server (s_keys s) = HMAC (s_master s) (prf_text (s_master s) (block_seed s) 2).
Proof. unfold s_keys, key_block. cbn [k_server]. exact (PRF_block (s_master s) "key expansion" (sh_random (s_sh s) ++ s_cr s) 88 1 ltac:(lia)). Qed.

Section two_runs.
Variables (m m' : mode) (s s' : src) (g g' : rng) (ss ss' : session).
Hypothesis R : reached m s g (Complete ss).
Hypothesis R' : reached m' s' g' (Complete ss').
Theorem equal_masters : s_master ss = s_master ss' -> same_origin ss ss' \/ masters_meet ss ss'.
Proof. apply master_origin; eapply session_good; eassumption. Qed.
Lemma equal_blocks_origin i : (0 < i)%nat -> HMAC (s_master ss) (prf_text (s_master ss) (block_seed ss) i) = HMAC (s_master ss') (prf_text (s_master ss') (block_seed ss') i) ->
  same_origin ss ss' \/ masters_meet ss ss' \/ blocks_meet ss i ss' i.
Proof.
  intros Hi E. apply block_origin in E; [|eapply session_good; eassumption|eapply session_good; eassumption|exact Hi|exact Hi].
  destruct E as [(E & _)|E]; [|auto]. destruct (equal_masters E); auto.
Qed.
Theorem equal_client_keys : k_client (s_keys ss) = k_client (s_keys ss') -> same_origin ss ss' \/ masters_meet ss ss' \/ blocks_meet ss 1 ss' 1.
Proof. rewrite !client_key_block. apply equal_blocks_origin. lia. Qed.
Theorem equal_server_keys : k_server (s_keys ss) = k_server (s_keys ss') -> same_origin ss ss' \/ masters_meet ss ss' \/ blocks_meet ss 2 ss' 2.
Proof. rewrite !server_key_block. apply equal_blocks_origin. lia. Qed.
Theorem equal_crossed_keys : k_client (s_keys ss) = k_server (s_keys ss') ->
  blocks_meet ss 1 ss' 2 \/ hmac_meets (s_master ss) (block_seed ss) (s_master ss') (A_ (s_master ss') (block_seed ss') 1).
Proof.
  rewrite client_key_block, server_key_block. intros E.
  pose proof (session_good _ _ _ _ R) as G. pose proof (session_good _ _ _ _ R') as G'.
  apply block_origin in E; [|exact G|exact G'|lia|lia]. destruct E as [(E1 & E2 & _)|E]; [right|left; exact E].
  change (A_ (s_master ss) (block_seed ss) 1) with (HMAC (s_master ss) (block_seed ss)) in E2.
  change (A_ (s_master ss') (block_seed ss') 2) with (HMAC (s_master ss') (A_ (s_master ss') (block_seed ss') 1)) in E2.
  destruct (seed_lengths ss G) as (_ & L). pose proof (A_length (s_master ss') (block_seed ss') 1 ltac:(lia)) as L'.
  apply HMAC_meets in E2; [|rewrite master_length; lia|rewrite !master_length; reflexivity|unfold zlen; rewrite L; lia|unfold zlen; rewrite L'; lia].
  destruct E2 as [(_ & E2)|E2]; [|exact E2]. rewrite E2, L' in L. discriminate L.
Qed.
End two_runs.

(** two clients: those with different first random bytes share no key, up to collisions *)
Theorem clients_apart : forall m s p g c l m' s' p' g' c' l', client_new m s p g = (Ok tt, c) -> client_new m' s' p' g' = (Ok tt, c') ->
  exists ss ss', reached m s g (Complete ss) /\ reached m' s' g' (Complete ss') /\
    w_enc (c_writer (snd (api_run m l c))) = Some (new_encryptor m (k_client (s_keys ss))) /\ r_dec (c_reader (snd (api_run m l c))) = Some (new_decryptor m (k_server (s_keys ss))) /\
    w_enc (c_writer (snd (api_run m' l' c'))) = Some (new_encryptor m' (k_client (s_keys ss'))) /\ r_dec (c_reader (snd (api_run m' l' c'))) = Some (new_decryptor m' (k_server (s_keys ss'))) /\
    (firstn 32 g <> firstn 32 g' ->
       (k_client (s_keys ss) = k_client (s_keys ss') -> masters_meet ss ss' \/ blocks_meet ss 1 ss' 1) /\
       (k_server (s_keys ss) = k_server (s_keys ss') -> masters_meet ss ss' \/ blocks_meet ss 2 ss' 2)) /\
    (k_client (s_keys ss) = k_server (s_keys ss') -> blocks_meet ss 1 ss' 2 \/ hmac_meets (s_master ss) (block_seed ss) (s_master ss') (A_ (s_master ss') (block_seed ss') 1)).
Proof.
  intros m s p g c l m' s' p' g' c' l' H H'.
  destruct (keys_fixed m s p g c l H) as (ss & R & K). destruct (keys_fixed m' s' p' g' c' l' H') as (ss' & R' & K').
  cbv zeta in K, K'. destruct K as (K1 & _ & K2 & _). destruct K' as (K1' & _ & K2' & _).
  exists ss, ss'. split; [exact R|]. split; [exact R'|]. split; [exact K1|]. split; [exact K2|]. split; [exact K1'|]. split; [exact K2'|].
  split; [|exact (equal_crossed_keys _ _ _ _ _ _ _ _ R R')]. intros N.
  assert (NO : ~ same_origin ss ss').
  { intros (_ & E & _). destruct R as (_ & C & _), R' as (_ & C' & _). congruence. }
  split; intros E.
  - destruct (equal_client_keys _ _ _ _ _ _ _ _ R R' E) as [O|O]; [contradiction|exact O].
  - destruct (equal_server_keys _ _ _ _ _ _ _ _ R R' E) as [O|O]; [contradiction|exact O].
Qed.
