(** Proofs about src/cipher/ecdhe.rs. *)
From Coq Require Import ZifyBool ZifyNat ZifyN.
From Verif Require Import Base M_P256 Spec_P256 Spec_Point P_Limbs P_Mult P_P256conv NT_Prime NT_P256 P_Inverse P_Fp P_Points NT_Order P_Scalar P_P256X P_Codec.
From Verif Require Export Spec_Ecdhe.

(** ** Drawing *)
Lemma skipn_skipn {A} (a b : nat) : forall l : list A, skipn a (skipn b l) = skipn (a + b) l.
Proof.
  induction b as [|b IH]; intros l; [rewrite Nat.add_0_r; reflexivity|].
  destruct l as [|x l]; [rewrite !skipn_nil; reflexivity|]. rewrite Nat.add_succ_r. cbn [skipn]. apply IH.
Qed.
Fixpoint words (n : nat) (g : rng) : list Z :=
  match n with O => [] | S k => le_val (firstn 4 g) :: words k (skipn 4 g) end.
Lemma words_length n : forall g, length (words n g) = n.
Proof. induction n; intros g; cbn; auto. Qed.
Lemma upd_mid (a b : list Z) x y : upd (length a) y (a ++ x :: b) = a ++ y :: b.
Proof. induction a as [|c a IH]; cbn; [reflexivity|]. rewrite IH. reflexivity. Qed.
Lemma draw_limbs_spec n : forall k x g, (4 * n <= length g)%nat -> length x = (k + n)%nat ->
  draw_limbs (seq k n) x g = (Ok (firstn k x ++ words n g), skipn (4 * n) g).
Proof.
  induction n as [|n IH]; intros k x g Hg Hx; cbn [seq draw_limbs words].
  - rewrite app_nil_r, firstn_all2 by lia. rewrite Nat.mul_0_r. reflexivity.
  - unfold next_u32, mbind, rng_fill. destruct (Nat.ltb_spec (length g) 4); [lia|]. cbn [mret].
    rewrite <- (firstn_skipn k x). destruct (skipn k x) as [|b r] eqn:E.
    { apply (f_equal (@length Z)) in E. rewrite skipn_length in E. cbn in E. lia. }
    assert (Lk : length (firstn k x) = k) by (rewrite firstn_length; lia).
    rewrite <- Lk at 2. rewrite upd_mid. rewrite IH.
    + rewrite firstn_app, Lk. replace (S k - k)%nat with 1%nat by lia. rewrite (firstn_all2 (firstn k x)) by lia.
      cbn [firstn]. rewrite <- app_assoc. cbn [app]. rewrite firstn_app, Lk, Nat.sub_diag, firstn_O, app_nil_r, firstn_firstn, Nat.min_id.
      rewrite skipn_skipn. replace (4 * n + 4)%nat with (4 * S n)%nat by lia. reflexivity.
    + rewrite skipn_length. lia.
    + rewrite app_length. cbn [length]. rewrite Lk. apply (f_equal (@length Z)) in E. rewrite skipn_length in E. cbn in E. lia.
Qed.
Lemma draw_limbs_short is : forall x g, (length g < 4 * length is)%nat -> exists g', draw_limbs is x g = (Panic, g').
Proof.
  induction is as [|i is IH]; intros x g H; cbn [length] in H; [lia|]. cbn [draw_limbs]. unfold next_u32, mbind, rng_fill.
  destruct (Nat.ltb_spec (length g) 4); [eauto|]. cbn [mret]. apply IH. rewrite skipn_length. lia.
Qed.
Lemma le_val_app a : forall b, le_val (a ++ b) = le_val a + 256 ^ zlen a * le_val b.
Proof.
  induction a as [|x a IH]; intros b; cbn [le_val app].
  - change (zlen (@nil byte)) with 0. rewrite Z.pow_0_r. lia.
  - rewrite IH. unfold zlen. cbn [length]. rewrite Nat2Z.inj_succ, Z.pow_succ_r by lia. ring.
Qed.
Lemma words_val n : forall g, (4 * n <= length g)%nat -> limbs_val (words n g) = le_val (firstn (4 * n) g) /\
  Forall (fun w => 0 <= w < 2 ^ 32) (words n g).
Proof.
  induction n as [|n IH]; intros g H; cbn [words limbs_val].
  - split; [reflexivity|constructor].
  - destruct (IH (skipn 4 g)) as [V F]; [rewrite skipn_length; lia|].
    assert (L4 : length (firstn 4 g) = 4%nat) by (rewrite firstn_length; lia).
    assert (Z4 : zlen (firstn 4 g) = 4) by (unfold zlen; rewrite L4; reflexivity).
    split.
    + rewrite V. replace (4 * S n)%nat with (4 + 4 * n)%nat by lia.
      rewrite <- (firstn_skipn 4 g) at 3. rewrite firstn_app, L4, (firstn_all2 (firstn 4 g)) by lia.
      replace (4 + 4 * n - 4)%nat with (4 * n)%nat by lia. rewrite le_val_app, Z4. reflexivity.
    + constructor; [|exact F]. pose proof (le_val_range (firstn 4 g)) as R. rewrite Z4 in R. exact R.
Qed.
Lemma group_spec g : (32 <= length g)%nat -> exists x, draw_limbs (seq 0 8) ZERO g = (Ok x, skipn 32 g) /\ int256_ok x /\ limbs_val x = draw g 0.
Proof.
  intros H. exists (words 8 g). split; [apply (draw_limbs_spec 8 0 ZERO g); [lia|reflexivity]|].
  destruct (words_val 8 g) as [V F]; [lia|]. split; [split; [apply words_length|exact F]|]. exact V.
Qed.
Lemma draw_shift g k : draw (skipn 32 g) k = draw g (S k).
Proof. unfold draw. rewrite skipn_skipn. do 3 f_equal. lia. Qed.
Lemma draw_range g k : 0 <= draw g k < 2 ^ 256.
Proof.
  unfold draw. pose proof (le_val_range (firstn 32 (skipn (32 * k) g))) as R. split; [apply R|].
  eapply Z.lt_le_trans; [apply R|]. change (2 ^ 256) with (256 ^ 32). apply Z.pow_le_mono_r; [reflexivity|].
  unfold zlen. rewrite firstn_length. lia.
Qed.

(** one turn of the loop *)
Lemma random_turn m f g : (32 <= length g)%nat -> exists x, int256_ok x /\ limbs_val x = draw g 0 /\
  get_random_loop m (S f) g = if draw g 0 <? p256 then (Ok x, skipn 32 g) else get_random_loop m f (skipn 32 g).
Proof.
  intros H. destruct (group_spec g H) as (x & E & Hx & V). exists x. split; [exact Hx|]. split; [exact V|].
  cbn [get_random_loop]. unfold mbind. rewrite E. unfold mlift.
  destruct (reduce_once_zero_spec m x Hx) as (v & Ev & Rv & Vv). unfold reduce_once_zero in Ev. rewrite Ev.
  rewrite icompare_spec by (assumption || apply Rv). rewrite Vv, V.
  destruct (Z.ltb_spec (draw g 0) p256) as [L|L].
  - rewrite Z.mod_small by (split; [apply draw_range|exact L]). rewrite Z.eqb_refl. reflexivity.
  - destruct (Z.eqb_spec (draw g 0 mod p256) (draw g 0)) as [X|X]; [|reflexivity].
    pose proof (Z.mod_pos_bound (draw g 0) p256 ltac:(reflexivity)) as B. rewrite X in B. exfalso. clear - B L. lia.
Qed.
Lemma random_short m f g : (length g < 32)%nat -> exists g', get_random_loop m (S f) g = (Panic, g').
Proof.
  intros H. cbn [get_random_loop]. unfold mbind. destruct (draw_limbs_short (seq 0 8) ZERO g) as (g' & E); [cbn; lia|]. rewrite E. eauto.
Qed.
Lemma random_accept m k : forall f g, (length g <= f)%nat -> first_accepted g k ->
  exists x, get_random_loop m (S f) g = (Ok x, skipn (32 * S k) g) /\ int256_ok x /\ limbs_val x = draw g k.
Proof.
  induction k as [|k IH]; intros f g Hf (L & A & B).
  - destruct (random_turn m f g ltac:(lia)) as (x & Hx & V & E). rewrite E. apply Z.ltb_lt in A. rewrite A. exists x. auto.
  - destruct (random_turn m f g ltac:(lia)) as (x0 & _ & _ & E). rewrite E.
    specialize (B 0%nat ltac:(lia)) as B0. apply Z.ltb_ge in B0. rewrite B0. destruct f as [|f]; [lia|].
    destruct (IH f (skipn 32 g)) as (x & E' & Hx & V).
    + rewrite skipn_length. lia.
    + split; [rewrite skipn_length; lia|]. split; [rewrite draw_shift; exact A|]. intros j Hj. rewrite draw_shift. apply B. lia.
    + exists x. rewrite E'. rewrite skipn_skipn. split; [do 2 f_equal; lia|]. split; [exact Hx|]. rewrite V. apply draw_shift.
Qed.
Lemma random_exhausted m : forall f g, (length g <= f)%nat -> ~ enough_randomness g -> exists g', get_random_loop m (S f) g = (Panic, g').
Proof.
  induction f as [|f IH]; intros g Hf N.
  - apply random_short. lia.
  - destruct (Nat.lt_ge_cases (length g) 32) as [S0|S0]; [apply random_short; exact S0|].
    destruct (random_turn m (S f) g S0) as (x & _ & _ & E). rewrite E.
    destruct (Z.ltb_spec (draw g 0) p256) as [L|L].
    + exfalso. apply N. exists 0%nat. split; [lia|]. split; [exact L|]. intros j Hj. lia.
    + apply IH; [rewrite skipn_length; lia|]. intros (k & A & B & C). apply N. exists (S k). rewrite skipn_length in A.
      split; [lia|]. rewrite draw_shift in B. split; [exact B|]. intros [|j] Hj; [exact L|]. rewrite <- draw_shift. apply C. lia.
Qed.
Lemma random_first m g k : first_accepted g k ->
  exists x, get_random_x m g = (Ok x, skipn (32 * S k) g) /\ int256_ok x /\ limbs_val x = draw g k.
Proof. apply random_accept. lia. Qed.
Lemma random_none m g : ~ enough_randomness g -> exists g', get_random_x m g = (Panic, g').
Proof. apply random_exhausted. lia. Qed.
Lemma enough_dec g : enough_randomness g \/ ~ enough_randomness g.
Proof.
  assert (D : forall n g, (length g <= n)%nat -> enough_randomness g \/ ~ enough_randomness g).
  { induction n as [|n IH]; intros h Hn.
    - right. intros (k & A & _). lia.
    - destruct (Nat.lt_ge_cases (length h) 32) as [S0|S0]; [right; intros (k & A & _); lia|].
      destruct (Z.lt_ge_cases (draw h 0) p256) as [L|L].
      + left. exists 0%nat. split; [lia|]. split; [exact L|]. intros j Hj. lia.
      + destruct (IH (skipn 32 h)) as [(k & A & B & C)|N]; [rewrite skipn_length; lia| |].
        * left. exists (S k). rewrite skipn_length in A. rewrite draw_shift in B. split; [lia|]. split; [exact B|].
          intros [|j] Hj; [exact L|]. rewrite <- draw_shift. apply C. lia.
        * right. intros ([|k] & A & B & C); [clear - B L; lia|]. apply N. exists k.
          split; [rewrite skipn_length; lia|]. split; [rewrite draw_shift; exact B|]. intros j Hj. rewrite draw_shift. apply C. lia. }
  apply (D (length g)). lia.
Qed.
(** the result of the draw says which group it was *)
Lemma random_inv m g x g' : get_random_x m g = (Ok x, g') ->
  exists k, first_accepted g k /\ g' = skipn (32 * S k) g /\ int256_ok x /\ limbs_val x = draw g k.
Proof.
  intros E. destruct (enough_dec g) as [(k & A)|N].
  - destruct (random_first m g k A) as (x' & E' & Hx & V). rewrite E in E'. inversion E'; subst. exists k. auto.
  - destruct (random_none m g N) as (h & E'). rewrite E in E'. discriminate E'.
Qed.

(** ** compute_keys *)
Lemma dh_shared_total m N a : int256_ok (nx N) -> int256_ok (ny N) -> exists R, dh_shared m N a = Ok R /\ reduced (nx R) /\ reduced (ny R).
Proof.
  intros Hx Hy. unfold dh_shared. destruct (mult_scalar_total m (to_point N) a (to_point_pok N Hx Hy)) as (P & E & HP). bstep E.
  destruct (normalize_spec m P HP) as (R & E & Rx & Ry & _). exists R. auto.
Qed.
Lemma uncompressed_length A : int256_ok (nx A) -> int256_ok (ny A) -> length (to_uncompressed_bytes A) = 65%nat.
Proof. intros Hx Hy. unfold to_uncompressed_bytes. rewrite !app_length, !to_bytes_length by assumption. reflexivity. Qed.
Lemma public_item (A : bytes) : length A = 65%nat -> vec_new i_u8 1 (2 ^ 8 - 1) A = Ok A /\ tls_write i_ec_data A = Ok (x41 :: A).
Proof.
  intros L. assert (Z : zlen A = 65) by (unfold zlen; rewrite L; reflexivity). split.
  - unfold vec_new. rewrite data_size_u8, Z. reflexivity.
  - pose proof (co_write _ _ _ codec_ec_data) as W. rewrite W by (unfold in_range; rewrite Z; lia). unfold sp_vec. rewrite Z. reflexivity.
Qed.
Lemma decoded_ok m data N : from_uncompressed_bytes m data = Ok (Some N) -> int256_ok (nx N) /\ int256_ok (ny N).
Proof.
  destruct (decode_cases m data) as [E|(x & y & Ox & Oy & E)]; rewrite E; [discriminate|]. intros H.
  destruct m; [destruct (decode_debug x y Ox Oy) as [F|[F|[F _]]]|destruct (decode_release x y Ox Oy) as [F|F]];
    rewrite F in H; try discriminate H; apply Ok_inj in H; injection H as <-; auto.
Qed.
Lemma compute_keys_run m data g k rest N : tls_read i_ske data = Ok (k, rest) ->
  from_uncompressed_bytes m (ske_public k) = Ok (Some N) ->
  compute_keys m data g =
  match get_random_x m g with
  | (Ok x, g') =>
      match dh_public m x, dh_shared m N x with
      | Ok A, Ok B => (Ok (x41 :: to_uncompressed_bytes A, to_bytes (nx B)), g')
      | _, _ => (Panic, g')
      end
  | (Err e, g') => (Err e, g') | (Panic, g') => (Panic, g') | (Diverge, g') => (Diverge, g')
  end.
Proof.
  intros E F. unfold_eq compute_keys. unfold mbind, mlift. rewrite E, F.
  destruct (get_random_x m g) as [[x|e| |] g'] eqn:ER; try reflexivity.
  destruct (random_inv m g x g' ER) as (j & _ & _ & Hx & _). destruct (decoded_ok m _ _ F) as [Ox Oy].
  destruct (dh_public_spec m x Hx) as (A & EA & RA & RB & _). rewrite EA.
  destruct (dh_shared_total m N x Ox Oy) as (B & EB & RC & RD). rewrite EB.
  revert EA EB. unfold dh_public, dh_shared. destruct (mult_scalar m G x) as [P| | |]; try discriminate. cbn [rbind].
  destruct (mult_scalar m (to_point N) x) as [Q| | |]; try discriminate. cbn [rbind]. intros -> ->.
  destruct (public_item (to_uncompressed_bytes A)) as [-> ->]; [apply uncompressed_length; [apply RA|apply RB]|]. reflexivity.
Qed.
Lemma compute_keys_accept m data g k rest N j : tls_read i_ske data = Ok (k, rest) ->
  from_uncompressed_bytes m (ske_public k) = Ok (Some N) -> first_accepted g j ->
  exists x A B, int256_ok x /\ limbs_val x = draw g j /\ dh_public m x = Ok A /\ dh_shared m N x = Ok B /\
    compute_keys m data g = (Ok (x41 :: to_uncompressed_bytes A, to_bytes (nx B)), skipn (32 * S j) g).
Proof.
  intros E F H. destruct (random_first m g j H) as (x & ER & Hx & V). destruct (decoded_ok m _ _ F) as [Ox Oy].
  destruct (dh_public_spec m x Hx) as (A & EA & _). destruct (dh_shared_total m N x Ox Oy) as (B & EB & _).
  exists x, A, B. rewrite (compute_keys_run m data g k rest N E F), ER, EA, EB. auto 6.
Qed.
Lemma compute_keys_early m data g : (forall k rest N, tls_read i_ske data = Ok (k, rest) -> from_uncompressed_bytes m (ske_public k) <> Ok (Some N)) ->
  compute_keys m data g =
  (match tls_read i_ske data with
   | Ok (k, _) => match from_uncompressed_bytes m (ske_public k) with Ok _ => Err IllegalParameter | _ => Panic end
   | Err e => Err e | _ => Panic
   end, g).
Proof.
  intros H. unfold_eq compute_keys. unfold mbind, mlift. destruct (tls_read i_ske data) as [[k rest]|e| |] eqn:E; try reflexivity.
  - specialize (H k rest). destruct (from_uncompressed_bytes m (ske_public k)) as [[N|]|e| |] eqn:F; try reflexivity.
    + exfalso. apply (H N eq_refl). reflexivity.
    + exfalso. destruct (decode_cases m (ske_public k)) as [X|(x & y & Ox & Oy & X)]; rewrite F in X; [discriminate X|].
      destruct m; [destruct (decode_debug x y Ox Oy) as [Y|[Y|[Y _]]]|destruct (decode_release x y Ox Oy) as [Y|Y]]; congruence.
    + exfalso. destruct (decode_cases m (ske_public k)) as [X|(x & y & Ox & Oy & X)]; rewrite F in X; [discriminate X|].
      destruct m; [destruct (decode_debug x y Ox Oy) as [Y|[Y|[Y _]]]|destruct (decode_release x y Ox Oy) as [Y|Y]]; congruence.
  - exfalso. pose proof (pa_total _ _ parser_ske data) as V. rewrite E in V. exact V.
Qed.
(** every outcome *)
Definition keys_shape (pub pms : bytes) : Prop :=
  length pms = 32%nat /\ exists x y, 0 <= x < p256 /\ 0 <= y < p256 /\ pub = [x41] ++ enc x y.
Lemma compute_keys_cases m data g :
  match compute_keys m data g with
  | (Ok (pub, pms), g') => keys_shape pub pms /\ enough_randomness g /\
      exists k rest N, tls_read i_ske data = Ok (k, rest) /\ from_uncompressed_bytes m (ske_public k) = Ok (Some N)
  | (Err e, g') => g' = g /\
      (tls_read i_ske data = Err e \/
       e = IllegalParameter /\ exists k rest, tls_read i_ske data = Ok (k, rest) /\ from_uncompressed_bytes m (ske_public k) = Ok None)
  | (Panic, _) => ~ enough_randomness g \/
      (m = Debug /\ exists k rest, tls_read i_ske data = Ok (k, rest) /\ from_uncompressed_bytes Debug (ske_public k) = Panic)
  | (Diverge, _) => False
  end.
Proof.
  destruct (tls_read i_ske data) as [[k rest]|e| |] eqn:E.
  - destruct (from_uncompressed_bytes m (ske_public k)) as [[N|]|e| |] eqn:F.
    + rewrite (compute_keys_run m data g k rest N E F). destruct (decoded_ok m _ _ F) as [Ox Oy].
      destruct (enough_dec g) as [(j & A)|NE].
      * destruct (random_first m g j A) as (x & -> & Hx & V).
        destruct (dh_public_spec m x Hx) as (PA & -> & Rx & Ry & _). destruct (dh_shared_total m N x Ox Oy) as (PB & -> & Sx & Sy).
        split; [|split; [exists j; exact A|exists k, rest, N; auto]]. split; [apply to_bytes_length; apply Sx|].
        exists (limbs_val (nx PA)), (limbs_val (ny PA)).
        split; [split; [apply limbs_val_range; apply Rx|apply Rx]|]. split; [split; [apply limbs_val_range; apply Ry|apply Ry]|].
        unfold to_uncompressed_bytes, enc. rewrite !to_bytes_spec by (apply Rx || apply Ry). reflexivity.
      * destruct (random_none m g NE) as (g' & ->). left. exact NE.
    + rewrite compute_keys_early by (intros k' rest' N X; rewrite E in X; inversion X; subst; rewrite F; discriminate).
      rewrite E, F. split; [reflexivity|]. right. split; [reflexivity|]. exists k, rest. auto.
    + exfalso. destruct (decode_cases m (ske_public k)) as [X|(x & y & Ox & Oy & X)]; rewrite F in X; [discriminate X|].
      destruct m; [destruct (decode_debug x y Ox Oy) as [Y|[Y|[Y _]]]|destruct (decode_release x y Ox Oy) as [Y|Y]]; congruence.
    + rewrite compute_keys_early by (intros k' rest' N X; rewrite E in X; inversion X; subst; rewrite F; discriminate).
      rewrite E, F. right. destruct m; [split; [reflexivity|]; exists k, rest; auto|].
      destruct (decode_release_total (ske_public k)) as (r & X). congruence.
    + exfalso. destruct (decode_cases m (ske_public k)) as [X|(x & y & Ox & Oy & X)]; rewrite F in X; [discriminate X|].
      destruct m; [destruct (decode_debug x y Ox Oy) as [Y|[Y|[Y _]]]|destruct (decode_release x y Ox Oy) as [Y|Y]]; congruence.
  - rewrite compute_keys_early by (intros k' rest' N X; rewrite E in X; discriminate X). rewrite E. auto.
  - exfalso. pose proof (pa_total _ _ parser_ske data) as V. rewrite E in V. exact V.
  - exfalso. pose proof (pa_total _ _ parser_ske data) as V. rewrite E in V. exact V.
Qed.

(** ** C32: the named curve and the signature play no part *)
Lemma read_ske_enc k : wf_ske k -> tls_read i_ske (e_ske k) = Ok (k, []).
Proof. intros W. pose proof (co_read _ _ _ codec_ske k [] W) as R. rewrite app_nil_r in R. exact R. Qed.
Lemma compute_keys_public m d d' k k' r r' g : tls_read i_ske d = Ok (k, r) -> tls_read i_ske d' = Ok (k', r') ->
  ske_public k = ske_public k' -> compute_keys m d g = compute_keys m d' g.
Proof.
  intros E E' P. unfold_eq compute_keys. unfold mbind, mlift. rewrite E, E', P. reflexivity.
Qed.
Lemma curve_ignored m c c' pub sg sg' rest rest' g : wf_ske (Ske c pub sg) -> wf_digitally_signed sg' ->
  compute_keys m (e_ske (Ske c pub sg) ++ rest) g = compute_keys m (e_ske (Ske c' pub sg') ++ rest') g.
Proof.
  intros W W'. assert (W2 : wf_ske (Ske c' pub sg')) by (split; [apply W|exact W']).
  exact (compute_keys_public m _ _ _ _ _ _ g (co_read _ _ _ codec_ske _ rest W) (co_read _ _ _ codec_ske _ rest' W2) eq_refl).
Qed.
Lemma G_decodes m : exists N, from_uncompressed_bytes m (enc Gx Gy) = Ok (Some N).
Proof.
  destruct (decode_enc m Gx Gy) as [(_ & N & E & _)|(N & _)]; [split; [discriminate|reflexivity]|split; [discriminate|reflexivity]| |].
  - exists N. exact E.
  - exfalso. apply N. exact on_G.
Qed.
Definition zeros : rng := repeat x00 32.
Lemma zeros_accepted : first_accepted zeros 0.
Proof. split; [cbn; lia|]. split; [vm_compute; reflexivity|]. intros j Hj. lia. Qed.
Lemma other_curve_accepted : exists data k g, tls_read i_ske data = Ok (k, []) /\ ske_curve k <> secp256r1 /\
  forall m, exists pub pms g', compute_keys m data g = (Ok (pub, pms), g').
Proof.
  set (k := Ske secp384r1 (enc Gx Gy) (DigSigned (SigHash H_sha256 S_rsa) [])). exists (e_ske k), k, zeros.
  assert (W : wf_ske k) by (split; vm_compute; intuition discriminate).
  split; [apply read_ske_enc; exact W|]. split; [discriminate|]. intros m. destruct (G_decodes m) as (N & E).
  destruct (compute_keys_accept m _ zeros k [] N 0 (read_ske_enc k W) E zeros_accepted) as (x & A & B & _ & _ & _ & _ & R). eauto.
Qed.
Lemma keys_panic : exists data g, enough_randomness g /\ fst (compute_keys Debug data g) = Panic.
Proof.
  set (k := Ske secp256r1 (enc (2 ^ 256 - 1) (2 ^ 256 - 1)) (DigSigned (SigHash H_sha256 S_rsa) [])). exists (e_ske k), zeros.
  assert (W : wf_ske k) by (split; vm_compute; intuition discriminate).
  split; [exists 0%nat; exact zeros_accepted|]. rewrite compute_keys_early; rewrite (read_ske_enc k W).
  - cbn [ske_public k]. rewrite debug_panics. reflexivity.
  - intros k' rest N X. apply Ok_inj in X. inversion X; subst. cbn [ske_public k]. rewrite debug_panics. discriminate.
Qed.
Lemma keys_lengths m data g pub pms g' : compute_keys m data g = (Ok (pub, pms), g') ->
  length pms = 32%nat /\ length pub = 66%nat /\
  exists x y, 0 <= x < p256 /\ 0 <= y < p256 /\ pub = x41 :: enc x y.
Proof.
  intros E. pose proof (compute_keys_cases m data g) as C. rewrite E in C. destruct C as ((L & x & y & Hx & Hy & ->) & _).
  split; [exact L|]. split; [cbn [app length]; rewrite enc_length; reflexivity|]. exists x, y. auto.
Qed.
Lemma keys_errors m data g k g' : compute_keys m data g = (Err k, g') -> g' = g /\
  (tls_read i_ske data = Err k \/
   k = IllegalParameter /\ exists p rest, tls_read i_ske data = Ok (p, rest) /\ from_uncompressed_bytes m (ske_public p) = Ok None).
Proof. intros E. pose proof (compute_keys_cases m data g) as C. rewrite E in C. exact C. Qed.
Lemma keys_release data g : enough_randomness g ->
  match fst (compute_keys Release data g) with Ok _ | Err _ => True | Panic | Diverge => False end.
Proof.
  intros H. pose proof (compute_keys_cases Release data g) as C. destruct (compute_keys Release data g) as [[[pub pms]|k| |] g']; cbn [fst]; try exact I.
  - destruct C as [C|[C _]]; [tauto|discriminate].
  - exact C.
Qed.
Lemma keys_example : exists data k rest N, tls_read i_ske data = Ok (k, rest) /\
  (forall m, from_uncompressed_bytes m (ske_public k) = Ok (Some N)) /\ first_accepted zeros 0.
Proof.
  set (k := Ske secp256r1 (enc Gx Gy) (DigSigned (SigHash H_sha256 S_rsa) [])). exists (e_ske k), k, [].
  assert (W : wf_ske k) by (split; vm_compute; intuition discriminate).
  exists (NPoint (px G) (py G)). split; [apply read_ske_enc; exact W|]. split; [|apply zeros_accepted].
  intros m. change (enc Gx Gy) with (to_uncompressed_bytes (NPoint (px G) (py G))).
  cbn [ske_public k]. destruct m; vm_compute; reflexivity.
Qed.
