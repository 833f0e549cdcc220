(** Proofs about the programs of [M_Leak2.v] for SHA-256 and HMAC. *)
From Verif Require Import P_Util P_Word Spec_Crypto P_Sha2 P_Prf M_Leak2 P_Leak P_LeakP P_LeakT P_Leak2 P_LeakA P_LeakB M_Leak.
From Coq Require Import ZifyBool ZifyNat ZifyN.
Local Open Scope Z_scope.

(** ** Results *)
Lemma schedule_eq b : schedule b = fold_left sched_step (seq 16 48) (read_u32_be b ++ repeat 0 48).
Proof. reflexivity. Qed.
#[local] Opaque schedule fold_left.
Ltac sst :=
  lazymatch goal with
  | |- does (pbind (bin (Add 32) _ _) _) _ _ => eapply does_let; [apply do_wadd|intros _]
  | |- does (pbind (un (Shr _) _) _) _ _ => eapply does_let; [apply do_wshr|intros _]
  | |- does (pbind (load _ _) _) _ _ => eapply does_let; [apply does_load; lia|intros _]
  | |- doesg _ (pbind (bin (Add 32) _ _) _) _ _ => eapply g_let1; [apply do_wadd|intros _]
  | |- doesg _ (pbind (load _ _) _) _ _ => eapply g_let1; [apply does_load; lia|intros _]
  | |- _ => st
  end.
Lemma does_sched w j : length w = 64%nat -> (16 <= j < 64)%nat -> does (t_sched_step w j) (Ok (sched_step w j)) (fun v => length v = 64%nat).
Proof. intros L J. unfold t_sched_step, sched_step. cbv zeta. repeat sst. apply does_store; [exact L|lia]. Qed.
Definition tva (s : vars) : tvars Z := TVars (va s) (vb s) (vc s) (vd s) (ve s) (vf s) (vg s) (vh s).
Lemma g_round w s j : length w = 64%nat -> (j < 64)%nat -> doesg tva (t_sha_round w (tva s) j) (Ok (sha_round w s j)) yes.
Proof.
  intros L J. destruct s as [a b c d e f g h]. unfold t_sha_round, tva at 2, sha_round. cbv zeta. cbn [va vb vc vd ve vf vg vh].
  repeat sst. apply (g_ret tva (Vars _ _ _ _ _ _ _ _)). exact I.
Qed.
Lemma read_be_len l : (length l mod 4 = 0)%nat -> length (read_u32_be l) = (length l / 4)%nat.
Proof. intros H. unfold read_u32_be. rewrite map_length. apply chunks_length; [lia|exact H]. Qed.
Lemma does_block val b : length val = 8%nat -> length b = 64%nat -> does (t_sha_block val (words b)) (Ok (sha_block val b)) len8.
Proof.
  intros V B. unfold t_sha_block, sha_block. eapply does_let; [apply g_read_be|intros _]. eapply does_let; [apply does_consts|intros _].
  assert (L0 : length (read_u32_be b ++ repeat 0 48) = 64%nat) by (rewrite app_length, read_be_len, B by (rewrite B; reflexivity); reflexivity).
  eapply does_let.
  { apply (does_fold t_sched_step sched_step (fun v => length v = 64%nat)); [|exact L0]. intros s j Hj S. apply in_seq in Hj. apply does_sched; [exact S|lia]. }
  rewrite <- schedule_eq. generalize (schedule b) as w. intros w W. cbv zeta. do 8 sst.
  eapply does_let.
  { assert (H := g_fold tva (fun j : nat => j) (t_sha_round w) (sha_round w) yes (seq 0 64)
      (Vars (at_ val 0) (at_ val 1) (at_ val 2) (at_ val 3) (at_ val 4) (at_ val 5) (at_ val 6) (at_ val 7))). rewrite map_id in H.
    exact (of_doesg _ _ _ _ (H ltac:(intros s j Hj _; apply in_seq_lt in Hj; apply g_round; assumption) I)). }
  intros _. generalize (fold_left (sha_round w) (seq 0 64)
      (Vars (at_ val 0) (at_ val 1) (at_ val 2) (at_ val 3) (at_ val 4) (at_ val 5) (at_ val 6) (at_ val 7))) as s. intros s.
  cbn [tva ta tb tc td te tf tg th]. do 16 sst. apply does_ret. reflexivity.
Qed.
Lemma g_blocks bs : forall val, Forall (fun b : bytes => length b = 64%nat) bs -> len8 val ->
  does (foldp t_sha_block (map words bs) val) (Ok (fold_left sha_block bs val)) len8.
Proof.
  induction bs as [|b bs IH]; intros val F V; [apply does_ret; exact V|]. inversion F as [|? ? B F']; subst. cbn [map foldp].
  eapply does_let; [apply does_block; [exact V|exact B]|]. intros V'. exact (IH _ F' V').
Qed.
Lemma chunks_full l : (length l mod 64 = 0)%nat -> Forall (fun b : bytes => length b = 64%nat) (chunks 64 l).
Proof.
  remember (length l / 64)%nat as n eqn:N. revert l N. induction n as [|n IH]; intros l N M.
  - assert (E : length l = 0%nat) by (pose proof (Nat.div_mod (length l) 64 ltac:(lia)); lia). apply length_zero_iff_nil in E. subst l. constructor.
  - pose proof (Nat.div_mod (length l) 64 ltac:(lia)) as E. rewrite chunks_cons; [|lia|destruct l; [cbn in N; lia|discriminate]].
    constructor; [rewrite firstn_length; lia|]. apply IH; rewrite skipn_length.
    + replace (length l - 64)%nat with (n * 64)%nat by lia. rewrite Nat.div_mul by lia. reflexivity.
    + replace (length l - 64)%nat with (n * 64)%nat by lia. apply Nat.mod_mul. lia.
Qed.
Definition pad_tail (len bitlen : Z) : bytes :=
  [x80] ++ zeros (Z.to_nat (Z.land ((64 - 8 - 1 - len) mod 2 ^ 64) 63)) ++ map (fun i => z2b (Z.shiftr bitlen (8 * i))) [7; 6; 5; 4; 3; 2; 1; 0].
Lemma words_tail len bitlen : words (pad_tail len bitlen) =
  128 :: repeat 0 (Z.to_nat (Z.land ((64 - 8 - 1 - len) mod 2 ^ 64) 63)) ++ map (fun i => b2z (z2b (Z.shiftr bitlen (8 * i)))) [7; 6; 5; 4; 3; 2; 1; 0].
Proof. unfold pad_tail. rewrite !map_app, words_zeros. reflexivity. Qed.
Lemma tail_len (msg : bytes) bitlen : (length (msg ++ pad_tail (zlen msg) bitlen) mod 64 = 0)%nat.
Proof.
  unfold pad_tail. rewrite pad_len_model. unfold zeros. rewrite !app_length, repeat_length. cbn [length map].
  destruct (pad_zeros_spec (length msg)) as (_ & H).
  replace (length msg + (1 + (pad_zeros (length msg) + 8)))%nat with (length msg + 1 + pad_zeros (length msg) + 8)%nat by lia.
  rewrite <- Nat.add_mod_idemp_l, H by lia. reflexivity.
Qed.
Lemma g_sha256 m msg : doesg words (t_sha256 m (words msg)) (sha256 m msg) (fun b => length b = 32%nat).
Proof.
  unfold t_sha256, sha256, sha_pad, t_sha_padding. cbv zeta.
  replace (zlen (words msg)) with (zlen msg) by (unfold zlen; rewrite map_length; reflexivity).
  destruct (ck m 64 (zlen msg * 8)) as [bitlen|e| |] eqn:E; cbn [rbind].
  - eapply g_let1; [apply does_consts|intros _]. cbv beta. rewrite <- words_tail, <- map_app.
    change (msg ++ [x80] ++ zeros (Z.to_nat (Z.land ((64 - 8 - 1 - zlen msg) mod 2 ^ 64) 63)) ++ map (fun i => z2b (Z.shiftr bitlen (8 * i))) [7; 6; 5; 4; 3; 2; 1; 0])
      with (msg ++ pad_tail (zlen msg) bitlen).
    assert (L := tail_len msg bitlen). revert L. generalize (msg ++ pad_tail (zlen msg) bitlen) as p. intros p L.
    assert (Z0 : zlen p mod 64 =? 0 = true).
    { unfold zlen. change 64 with (Z.of_nat 64). rewrite <- Nat2Z.inj_mod, L. reflexivity. }
    assert (Z1 : zlen (words p) = zlen p) by (unfold zlen; rewrite map_length; reflexivity). rewrite Z1, Z0.
    eapply g_let1; [destruct m; apply (does_ret tt yes); exact I|intros _].
    eapply g_let1; [apply does_consts|intros _]. rewrite chunks_words.
    eapply g_let1; [apply g_blocks; [apply chunks_full; exact L|reflexivity]|]. intros V.
    replace (dassert m true) with (@Ok unit tt) by (destruct m; reflexivity). cbn [rbind].
    refine (g_weaken _ _ _ _ _ (g_write_be _) _). cbv beta. intros b ->. red in V. rewrite V. reflexivity.
  - split; [|discriminate]. unfold ck in E. destruct (_ && _); [discriminate|destruct m; discriminate].
  - split; [reflexivity|discriminate].
  - split; [|discriminate]. unfold ck in E. destruct (_ && _); [discriminate|destruct m; discriminate].
Qed.
Lemma g_xor_into : forall a b, doesg words (t_xor_into (words a) (words b)) (Ok (xor_into a b)) (fun c => length c = length a).
Proof.
  induction a as [|x a IH]; intros [|y b]; cbn [map t_xor_into xor_into].
  - apply (g_ret words []). reflexivity.
  - apply (g_ret words []). reflexivity.
  - apply (g_ret words (x :: a)). reflexivity.
  - st. eapply g_let; [apply IH|intros L]. rewrite <- b2z_bxor. apply (g_ret words (bxor x y :: xor_into a b)). cbn [length]. congruence.
Qed.
Lemma g_hmac m key msg : doesg words (t_hmac m (words key) (words msg)) (hmac_sha256 m key msg) (fun b => length b = 32%nat).
Proof.
  unfold t_hmac, hmac_sha256. rewrite map_length. destruct (64 <? length key)%nat; [split; [reflexivity|discriminate]|]. cbv zeta.
  eapply g_let1; [apply does_consts|intros _]. eapply g_let1; [apply does_consts|intros _].
  change (repeat 54 64) with (words (repeat x36 64)). change (repeat 92 64) with (words (repeat x5c 64)).
  eapply g_let; [apply g_xor_into|intros _]. eapply g_let; [apply g_xor_into|intros _]. rewrite <- map_app.
  eapply g_bind; [apply g_sha256|]. intros h _ _. rewrite <- map_app. apply g_sha256.
Qed.

(** ** Traces *)
Lemma near_sched w w' j : both 64 w w' -> (16 <= j < 64)%nat -> near (both 64) (t_sched_step w j) (t_sched_step w' j).
Proof. intros W J. unfold t_sched_step. repeat nst. apply near_store; [exact W|lia]. Qed.
Lemma near_round w w' s s' j : both 64 w w' -> (j < 64)%nat -> near any (t_sha_round w s j) (t_sha_round w' s' j).
Proof. intros W J. unfold t_sha_round. destruct s, s'. repeat nst. constructor. exact I. Qed.
Lemma near_block v v' b b' : both 8 v v' -> both 64 b b' -> near (both 8) (t_sha_block v b) (t_sha_block v' b').
Proof.
  intros V B. unfold t_sha_block. eapply near_bind; [apply (near_read true 64); [reflexivity|exact B]|]. intros w w' [W W'].
  eapply near_bind; [apply near_consts|]. rewrite repeat_length. intros z z' [Z1 Z2]. eapply near_bind.
  - apply (near_fold (both 64) (fun i j => i = j /\ (16 <= i < 64)%nat)); [apply same_list; rewrite Forall_forall; intros i Hi; apply in_seq in Hi; lia| |].
    + intros s s' i j [-> Hi] S. apply near_sched; assumption.
    + split; rewrite app_length; lia.
  - intros u u' U. do 8 nst. eapply near_bind with (R := any).
    + apply (near_fold any (fun i j => i = j /\ (i < 64)%nat)); [apply same_list; rewrite Forall_forall; intros i Hi; apply in_seq_lt in Hi; exact Hi| |exact I].
      intros s s' i j [-> Hi] _. apply near_round; assumption.
    + intros s s' _. repeat nst. constructor. split; reflexivity.
Qed.
Lemma near_sha256 m a b : eqlen a b -> near (both 32) (t_sha256 m a) (t_sha256 m b).
Proof.
  intros E. red in E. unfold t_sha256, t_sha_padding. assert (E1 : zlen b = zlen a) by (unfold zlen; congruence). rewrite E1.
  destruct (ck m 64 (zlen a * 8)) as [bitlen|e| |]; [|cbn [pbind]; constructor|cbn [pbind]; constructor|cbn [pbind]; constructor].
  eapply near_bind; [apply near_consts|]. intros t t' [T T']. cbv zeta.
  assert (P : length (a ++ t) = length (b ++ t')) by (rewrite !app_length; congruence).
  assert (P1 : zlen (b ++ t') = zlen (a ++ t)) by (unfold zlen; congruence). rewrite P1.
  assert (M : (length (a ++ t) mod 64 = 0)%nat).
  { assert (X := tail_len (repeat x00 (length a)) bitlen). rewrite app_length, repeat_length in X.
    replace (zlen (repeat x00 (length a))) with (zlen a) in X by (unfold zlen; rewrite repeat_length; reflexivity).
    rewrite app_length, T. rewrite <- words_tail, map_length. exact X. }
  eapply near_bind with (R := any); [destruct m; [destruct (_ =? 0)|]; repeat constructor|]. intros _ _ _.
  eapply near_bind; [apply near_consts|]. intros v v' V. eapply near_bind.
  - apply (near_fold (both 8) (both 64)); [|intros; apply near_block; assumption|exact V].
    revert M P. generalize (a ++ t) (b ++ t'). intros l l' M P. clear - M P.
    assert (F := chunks_eqlen 64 (length l) l l' ltac:(lia) P). 
    assert (G : Forall (fun c : list Z => length c = 64%nat) (chunks 64 l)).
    { assert (X := chunks_full (repeat x00 (length l)) ltac:(rewrite repeat_length; exact M)).
      assert (Y := chunks_eqlen 64 (length l) l (words (repeat x00 (length l))) ltac:(lia) ltac:(red; rewrite map_length, repeat_length; reflexivity)).
      rewrite chunks_words in Y. revert X Y. generalize (chunks 64 (repeat x00 (length l))) (chunks 64 l). clear.
      intros c d X. revert d. induction X as [|x c Hx X IH]; intros d Y; inversion Y; subst; constructor; [|apply IH; assumption].
      match goal with H : eqlen _ _ |- _ => red in H; rewrite map_length in H; congruence end. }
    revert F G. clear. induction 1 as [|x y c d Hxy F IH]; intros G; constructor; inversion G; subst; [split; [assumption|red in Hxy; congruence]|apply IH; assumption].
  - intros u u' U. apply (near_write true 8). exact U.
Qed.
Lemma near_xor_into : forall a a' b b', eqlen a a' -> eqlen b b' -> near (fun u v => length u = length a /\ eqlen u v) (t_xor_into a b) (t_xor_into a' b').
Proof.
  induction a as [|x a IH]; intros [|x' a'] b b' A B; try discriminate; cbn [t_xor_into].
  - constructor. split; reflexivity.
  - destruct b as [|y b], b' as [|y' b']; try discriminate; [constructor; split; [reflexivity|exact A]|]. injection A as A. injection B as B.
    nst. eapply near_bind; [apply IH; assumption|]. intros u v [U V]. constructor. split; cbn [length]; [congruence|]. red in V. unfold eqlen. cbn [length]. congruence.
Qed.
Lemma near_hmac m k k' d d' : eqlen k k' -> eqlen d d' -> near (both 32) (t_hmac m k d) (t_hmac m k' d').
Proof.
  intros K D. unfold t_hmac. assert (K1 := K). red in K1. rewrite <- K1. destruct (64 <? length k)%nat; [constructor|].
  eapply near_bind; [apply near_consts|]. intros i i' [I1 I2]. eapply near_bind; [apply near_consts|]. intros o o' [O1 O2].
  eapply near_bind; [apply near_xor_into; [red; congruence|exact K]|]. intros u u' [_ U].
  eapply near_bind; [apply near_xor_into; [red; congruence|exact K]|]. intros w w' [_ W]. red in U, W, D.
  eapply near_bind; [apply near_sha256; red; rewrite !app_length; congruence|]. intros h h' [H1 H2]. apply near_sha256. red. rewrite !app_length. congruence.
Qed.
