(** HMAC-SHA256 and the TLS PRF: the model against RFC 2104 and RFC 5246. *)
From Verif Require Export M_Prf P_Sha2.
From Coq Require Import ZifyBool ZifyNat ZifyN.

Lemma xor_into_repeat c n key : (length key <= n)%nat ->
  xor_into (repeat c n) key = map (bxor c) (key ++ zeros (n - length key)).
Proof.
  revert key. induction n as [|n IH]; intros [|k key] H; cbn [length] in *; try lia; auto.
  - cbn [repeat xor_into app Nat.sub zeros map]. f_equal; [symmetry; apply bxor_0_r|].
    fold (zeros n). clear. induction n; cbn [repeat zeros map]; [reflexivity|]. f_equal; [symmetry; apply bxor_0_r|assumption].
  - cbn [repeat xor_into app Nat.sub map]. f_equal. apply IH. lia.
Qed.

Lemma hmac_key_short K : (length K <= 64)%nat -> hmac_key K = K ++ zeros (64 - length K).
Proof. intros H. unfold hmac_key. destruct (Nat.ltb_spec 64 (length K)); [lia|reflexivity]. Qed.
Lemma hmac_key_length K : length (hmac_key K) = 64%nat.
Proof.
  unfold hmac_key. cbv zeta. rewrite app_length. unfold zeros. rewrite repeat_length.
  destruct (Nat.ltb_spec 64 (length K)); [rewrite SHA256_length|]; lia.
Qed.

Lemma hmac_spec m key msg : (length key <= 64)%nat -> zlen msg + 64 < 2 ^ 61 ->
  hmac_sha256 m key msg = Ok (HMAC key msg).
Proof.
  intros Hk Hm. unfold hmac_sha256. destruct (Nat.ltb_spec 64 (length key)); [lia|].
  rewrite !xor_into_repeat by assumption. rewrite <- hmac_key_short by assumption.
  rewrite sha256_spec; [|rewrite zlen_app; unfold zlen at 1; rewrite map_length, hmac_key_length; lia].
  cbn [rbind]. rewrite sha256_spec; [reflexivity|].
  rewrite zlen_app; unfold zlen; rewrite map_length, hmac_key_length, SHA256_length; lia.
Qed.
Lemma hmac_long_key m key msg : (64 < length key)%nat -> hmac_sha256 m key msg = Panic.
Proof. intros H. unfold hmac_sha256. destruct (Nat.ltb_spec 64 (length key)); [reflexivity|lia]. Qed.
Lemma HMAC_length K t : length (HMAC K t) = 32%nat.
Proof. apply SHA256_length. Qed.
#[local] Opaque HMAC.

(** ** The stream of P_SHA256 *)
Section stream.
  Variables secret seed : bytes.
  Definition pblock (i : nat) : bytes := HMAC secret (A_ secret seed (S i) ++ seed).
  Definition pbyte (i : nat) : byte := nth (i mod 32) (pblock (i / 32)) x00.
  Definition pslice (n k : nat) : bytes := map pbyte (seq n k).

  Lemma pslice_length n k : length (pslice n k) = k.
  Proof. unfold pslice. rewrite map_length, seq_length. reflexivity. Qed.
  Lemma pslice_app n a b : pslice n (a + b) = pslice n a ++ pslice (n + a) b.
  Proof. unfold pslice. rewrite seq_app, map_app. reflexivity. Qed.
  Lemma firstn_pslice n a b : (a <= b)%nat -> firstn a (pslice n b) = pslice n a.
  Proof.
    intros H. replace b with (a + (b - a))%nat by lia. rewrite pslice_app.
    rewrite firstn_app, pslice_length, Nat.sub_diag, firstn_O, app_nil_r.
    apply firstn_all2. rewrite pslice_length. lia.
  Qed.
  Lemma skipn_pslice n a b : (a <= b)%nat -> skipn a (pslice n b) = pslice (n + a) (b - a).
  Proof.
    intros H. replace b with (a + (b - a))%nat at 1 by lia. rewrite pslice_app.
    rewrite skipn_app, pslice_length, Nat.sub_diag, skipn_O.
    rewrite skipn_all2 by (rewrite pslice_length; lia). reflexivity.
  Qed.
  Lemma map_nth_seq (l : bytes) : map (fun i => nth i l x00) (seq 0 (length l)) = l.
  Proof.
    induction l as [|x l IH]; [reflexivity|]. cbn [length seq map nth]. f_equal.
    rewrite <- seq_shift, map_map. exact IH.
  Qed.
  Lemma pslice_block i : pslice (32 * i) 32 = pblock i.
  Proof.
    unfold pslice. rewrite <- (map_nth_seq (pblock i)) at 1. unfold pblock at 2. rewrite HMAC_length.
    assert (E : forall a k, map pbyte (seq a k) = map (fun j => pbyte (a + j)%nat) (seq 0 k)).
    { intros a k. revert a. induction k as [|k IH]; intros a; cbn [seq map]; [reflexivity|].
      rewrite Nat.add_0_r. f_equal. rewrite IH, <- seq_shift, map_map. apply map_ext. intros j. f_equal. lia. }
    rewrite E. apply map_ext_in. intros j Hj. apply in_seq in Hj. unfold pbyte.
    replace (32 * i + j)%nat with (j + i * 32)%nat by lia.
    rewrite Nat.mod_add, Nat.div_add by lia. rewrite Nat.mod_small, Nat.div_small by lia. reflexivity.
  Qed.
  Lemma P_hash_pslice n : P_hash secret seed n = pslice 0 (32 * n).
  Proof.
    induction n as [|n IH]; [reflexivity|].
    unfold P_hash in *. rewrite seq_S, map_app, concat_app, IH.
    replace (32 * S n)%nat with (32 * n + 32)%nat by lia. rewrite pslice_app, Nat.add_0_l, pslice_block.
    cbn [map concat Nat.add]. rewrite app_nil_r. reflexivity.
  Qed.

  (** the generator has handed out [n] bytes *)
  Definition prf_at (n : nat) (p : prf) : Prop :=
    p_secret p = secret /\ p_seed p = seed /\
    exists i, p_a p = A_ secret seed (S i) /\ (n + length (p_buf p) = 32 * i)%nat /\ p_buf p = pslice n (length (p_buf p)).

  Hypothesis Hsecret : (length secret <= 64)%nat.
  Hypothesis Hseed : zlen seed + 96 < 2 ^ 61.

  Lemma A_length i : zlen (A_ secret seed (S i)) = 32.
  Proof. cbn [A_]. unfold zlen. rewrite HMAC_length. reflexivity. Qed.

  Lemma prf_new_at m : exists p, prf_new m secret seed = Ok p /\ prf_at 0 p.
  Proof.
    unfold prf_new. rewrite hmac_spec by lia. cbn [rbind]. eexists. split; [reflexivity|].
    split; [reflexivity|]. split; [reflexivity|]. exists 0%nat. split; [reflexivity|]. split; reflexivity.
  Qed.

  Lemma next_block_at m n p : prf_at n p -> p_buf p = [] ->
    exists p', next_block m p = Ok (pslice n 32, p') /\ prf_at (n + 32) p' /\ p_buf p' = [].
  Proof.
    intros (Es & Ee & i & Ea & En & _) Eb. rewrite Eb in En. cbn [length] in En.
    unfold next_block. rewrite Es, Ee, Ea.
    pose proof (A_length i) as LA. pose proof (zlen_nonneg seed).
    rewrite hmac_spec by (try assumption; rewrite zlen_app, LA; lia). cbn [rbind].
    rewrite hmac_spec by (try assumption; rewrite LA; lia). cbn [rbind].
    eexists. split; [|split].
    - replace n with (32 * i)%nat by lia. rewrite pslice_block. reflexivity.
    - split; [reflexivity|]. split; [reflexivity|]. exists (S i). cbn [p_a p_buf]. rewrite Eb. cbn [length].
      split; [reflexivity|]. split; [lia|reflexivity].
    - exact Eb.
  Qed.

  Lemma get_loop_at m n size : forall fuel ret p,
    prf_at (n + length ret) p -> p_buf p = [] -> ret = pslice n (length ret) ->
    (length ret <= size)%nat -> (size - length ret <= fuel)%nat ->
    exists p', get_loop m fuel size ret p = Ok (pslice n size, p') /\ prf_at (n + size) p'.
  Proof.
    induction fuel as [|fuel IH]; intros ret p H Hb Hr Hs Hf; cbn [get_loop].
    - destruct (Nat.ltb_spec (length ret) size); [lia|].
      assert (E : length ret = size) by lia. exists p. rewrite Hr, E, <- E. split; [rewrite E; reflexivity|exact H].
    - destruct (Nat.ltb_spec (length ret) size).
      2:{ assert (E : length ret = size) by lia. exists p. rewrite Hr, E, <- E. split; [rewrite E; reflexivity|exact H]. }
      destruct (next_block_at m _ p H Hb) as (p1 & -> & H1 & Hb1). cbn [rbind].
      assert (Hr1 : ret ++ pslice (n + length ret) 32 = pslice n (length ret + 32)).
      { rewrite pslice_app, <- Hr. reflexivity. }
      assert (HL : length (ret ++ pslice (n + length ret) 32) = (length ret + 32)%nat).
      { rewrite app_length, pslice_length. reflexivity. }
      destruct (Nat.ltb_spec 32 (size - length ret)).
      + apply IH; rewrite ?HL; try assumption; try lia.
        replace (n + (length ret + 32))%nat with (n + length ret + 32)%nat by lia. exact H1.
      + eexists. split.
        * rewrite firstn_pslice by lia.
          assert (E : ret ++ pslice (n + length ret) (size - length ret) = pslice n size); [|rewrite E; reflexivity].
          transitivity (pslice n (length ret + (size - length ret))); [|f_equal; lia].
          rewrite pslice_app, <- Hr. reflexivity.
        * destruct H1 as (Es & Ee & i & Ea & En & _). rewrite Hb1 in En. cbn [length] in En.
          split; [exact Es|]. split; [exact Ee|]. exists i. cbn [p_a p_buf].
          rewrite skipn_pslice by lia. rewrite pslice_length. split; [exact Ea|]. split; [lia|].
          f_equal. lia.
  Qed.

  Lemma get_bytes_at m n size p : prf_at n p ->
    exists p', get_bytes m size p = Ok (pslice n size, p') /\ prf_at (n + size) p'.
  Proof.
    intros H. unfold get_bytes. destruct (Nat.ltb_spec 0 (length (p_buf p))).
    - pose proof H as (Es & Ee & i & Ea & En & Eb). destruct (Nat.leb_spec (length (p_buf p)) size).
      + apply get_loop_at; try assumption; try reflexivity; try lia.
        split; [exact Es|]. split; [exact Ee|]. exists i. cbn [p_a p_buf length]. split; [exact Ea|].
        split; [lia|reflexivity].
      + exists (Prf (p_secret p) (p_seed p) (p_a p) (skipn size (p_buf p))). split.
        * f_equal. f_equal. rewrite Eb, firstn_pslice by lia. reflexivity.
        * split; [exact Es|]. split; [exact Ee|]. exists i. cbn [p_a p_buf].
          rewrite Eb, skipn_pslice by lia. rewrite pslice_length. split; [exact Ea|]. split; [lia|reflexivity].
    - assert (p_buf p = []) by (destruct (p_buf p); [reflexivity|cbn in *; lia]).
      apply get_loop_at; try assumption; try reflexivity; cbn [length]; try lia.
      rewrite Nat.add_0_r. exact H.
  Qed.
End stream.

(** any sequence of requests *)
Fixpoint requests (m : mode) (sizes : list nat) (p : prf) : res (list bytes * prf) :=
  match sizes with
  | [] => Ok ([], p)
  | k :: ks => let* (out, p) := get_bytes m k p in let* (outs, p) := requests m ks p in Ok (out :: outs, p)
  end.

Definition total_req (sizes : list nat) : nat := fold_right Nat.add 0%nat sizes.

Lemma requests_at secret seed m sizes : (length secret <= 64)%nat -> zlen seed + 96 < 2 ^ 61 ->
  forall n p, prf_at secret seed n p ->
  exists outs p', requests m sizes p = Ok (outs, p') /\ prf_at secret seed (n + total_req sizes) p' /\
    map (@length byte) outs = sizes /\ concat outs = pslice secret seed n (total_req sizes).
Proof.
  intros Hs He. induction sizes as [|k ks IH]; intros n p H; cbn [requests total_req fold_right].
  - exists [], p. rewrite Nat.add_0_r. auto.
  - destruct (get_bytes_at secret seed Hs He m n k p H) as (p1 & -> & H1). cbn [rbind].
    destruct (IH _ _ H1) as (outs & p2 & -> & H2 & HL & HC). cbn [rbind].
    eexists _, _. split; [reflexivity|]. fold (total_req ks). rewrite Nat.add_assoc. split; [exact H2|].
    cbn [map concat]. rewrite pslice_length, HL, HC, pslice_app. auto.
Qed.

Lemma prf_requests m secret seed sizes n : (length secret <= 64)%nat -> zlen seed + 96 < 2 ^ 61 ->
  (total_req sizes <= 32 * n)%nat ->
  exists p outs p', prf_new m secret seed = Ok p /\ requests m sizes p = Ok (outs, p') /\
    map (@length byte) outs = sizes /\ concat outs = firstn (total_req sizes) (P_hash secret seed n).
Proof.
  intros Hs He Hn. destruct (prf_new_at secret seed Hs He m) as (p & Ep & H).
  destruct (requests_at secret seed m sizes Hs He 0%nat p H) as (outs & p' & E & _ & HL & HC).
  exists p, outs, p'. split; [exact Ep|]. split; [exact E|]. split; [exact HL|].
  rewrite HC, P_hash_pslice, firstn_pslice by exact Hn. reflexivity.
Qed.

(** request boundaries do not matter *)
Lemma prf_boundaries m secret seed s1 s2 p o1 p1 o2 p2 : (length secret <= 64)%nat -> zlen seed + 96 < 2 ^ 61 ->
  prf_new m secret seed = Ok p -> total_req s1 = total_req s2 ->
  requests m s1 p = Ok (o1, p1) -> requests m s2 p = Ok (o2, p2) -> concat o1 = concat o2.
Proof.
  intros Hs He Ep Et E1 E2. destruct (prf_new_at secret seed Hs He m) as (q & Eq & H).
  rewrite Ep in Eq. injection Eq as <-.
  destruct (requests_at secret seed m s1 Hs He 0%nat p H) as (? & ? & F1 & _ & _ & C1).
  destruct (requests_at secret seed m s2 Hs He 0%nat p H) as (? & ? & F2 & _ & _ & C2).
  rewrite E1 in F1. injection F1 as <- <-. rewrite E2 in F2. injection F2 as <- <-.
  rewrite C1, C2, Et. reflexivity.
Qed.

(** a secret above 64 bytes panics at once *)
Lemma prf_long_secret m secret seed : (64 < length secret)%nat -> prf_new m secret seed = Panic.
Proof. intros H. unfold prf_new. rewrite hmac_long_key by assumption. reflexivity. Qed.
