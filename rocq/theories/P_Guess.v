(** Proofs for C117: guessing tags of a record that was held back. *)
From Verif Require Export Spec_Guess P_Repeat P_Tries.
From Verif Require Import P_Util P_Chacha P_Aead P_Receive P_Commit.
From Coq Require Import ZifyBool ZifyNat ZifyN.
Local Open Scope list_scope.
Local Open Scope Z_scope.
#[local] Opaque SHA256 HMAC aead_decrypt aead_encrypt compute_keys PRF nmul chacha20_block.

(** ** the numbers with bits within a mask *)
Fixpoint mask (bits : list bool) : Z := match bits with [] => 0 | b :: r => 2 * mask r + Z.b2z b end.
Fixpoint within (bits : list bool) : list Z :=
  match bits with [] => [0] | b :: r => map (fun z => 2 * z) (within r) ++ if b then map (fun z => 2 * z + 1) (within r) else [] end.
Fixpoint ones (bits : list bool) : Z := match bits with [] => 0 | b :: r => ones r + Z.b2z b end.
Lemma ones_nonneg bits : 0 <= ones bits.
Proof. induction bits as [|[] r IH]; cbn [ones Z.b2z]; lia. Qed.
Lemma within_length bits : Z.of_nat (length (within bits)) = 2 ^ ones bits.
Proof.
  induction bits as [|b r IH]; [reflexivity|]. cbn [within ones]. rewrite app_length, map_length, Nat2Z.inj_add, IH. pose proof (ones_nonneg r). destruct b; cbn [Z.b2z].
  - rewrite map_length, IH, Z.pow_add_r by lia. lia.
  - cbn [length Z.of_nat]. rewrite !Z.add_0_r. reflexivity.
Qed.
Lemma land_step a c p q : Z.land (2 * a + Z.b2z p) (2 * c + Z.b2z q) = 2 * Z.land a c + Z.b2z (p && q).
Proof.
  apply Z.bits_inj'. intros n Hn. rewrite Z.land_spec. destruct (Z.eq_dec n 0) as [->|N].
  - rewrite !Z.testbit_0_r. reflexivity.
  - replace n with (Z.succ (n - 1)) by lia. rewrite !Z.testbit_succ_r by lia. symmetry. apply Z.land_spec.
Qed.
Lemma within_all bits : forall z, In (Z.land z (mask bits)) (within bits).
Proof.
  induction bits as [|b r IH]; intros z; cbn [mask within]; [left; symmetry; apply Z.land_0_r|].
  rewrite (Z.div2_odd z), land_step. apply in_or_app. destruct (Z.odd z && b) eqn:O.
  - right. apply andb_prop in O as [_ ->]. apply in_map_iff. eexists. split; [reflexivity|apply IH].
  - left. apply in_map_iff. exists (Z.land (Z.div2 z) (mask r)). split; [cbn [Z.b2z]; ring|apply IH].
Qed.
Definition clamp_bits : list bool := map (Z.testbit 0x0ffffffc0ffffffc0ffffffc0fffffff) (map Z.of_nat (seq 0 128)).
Lemma clamp_mask : mask clamp_bits = 0x0ffffffc0ffffffc0ffffffc0fffffff.
Proof. vm_compute. reflexivity. Qed.
Lemma clamp_ones : ones clamp_bits = 106.
Proof. vm_compute. reflexivity. Qed.
#[local] Opaque clamp_bits within.
Lemma first_in (t : bytes) : forall l, In t l -> exists a b, l = a ++ t :: b /\ ~ In t a.
Proof.
  induction l as [|x l IH]; intros I; [destruct I|]. destruct (list_eq_dec Byte.byte_eq_dec x t) as [->|N].
  - exists [], l. split; [reflexivity|intros []].
  - destruct I as [->|I]; [contradiction|]. destruct (IH I) as (a & b & -> & Na). exists (x :: a), b. split; [reflexivity|]. intros [X|X]; [contradiction|exact (Na X)].
Qed.
(** the tags that the points give to another ciphertext *)
Definition tags (k : Z) (p p' c t : bytes) : list bytes :=
  map (fun x => moved x (rfc_ad k ApplicationDataTy x03 x03 (zlen p)) c t (rfc_ad k ApplicationDataTy x03 x03 (zlen p')) (swapped c p p')) (within clamp_bits).
Lemma tags_length k p p' c t : Z.of_nat (length (tags k p p' c t)) = 2 ^ 106 /\ Forall (fun a => length a = 16%nat) (tags k p p' c t).
Proof.
  split; [unfold tags; rewrite map_length, within_length, clamp_ones; reflexivity|].
  apply Forall_forall; intros a I; unfold tags in I; apply in_map_iff in I as (x & <- & _); apply moved_length.
Qed.
Lemma tags_work : forall k p p' c t, legal_fragment p' -> (length p' <= length p)%nat -> length t = 16%nat -> k + 1 < 2 ^ 64 ->
  forall m key iv cl ns rest, keyed m (c_reader cl) key iv k -> no_pending (c_reader cl) -> c_buf cl = [] ->
    aead_seal key (rfc_nonce iv k) (rfc_ad k ApplicationDataTy x03 x03 (zlen p)) p = c ++ t -> (length (tags k p p' c t) <= length ns)%nat ->
    stream (r_src (c_reader cl)) = concat (map (fun a => on_wire (with_tag (swapped c p p') a)) (tags k p p' c t)) ++ rest ->
    exists n c1 c2, (n < length (tags k p p' c t))%nat /\ vain m (firstn n ns) cl c1 /\ client_read m (length p') c1 = (Ok p', c2).
Proof.
  intros k p p' c t L Lp Lt Bk.
  intros m key iv cl ns rest K Np Bf S Ln St.
  set (n := rfc_nonce iv k) in *. set (ad := rfc_ad k ApplicationDataTy x03 x03 (zlen p)) in *. set (ad' := rfc_ad k ApplicationDataTy x03 x03 (zlen p')).
  set (c' := swapped c p p') in *. set (T := moved (point_of key n) ad c t ad' c').
  assert (ET : T = poly1305_mac (aead_mac_data ad' c') (firstn 16 (poly_key_gen key n)) (skipn 16 (poly_key_gen key n))) by (apply (moved_real key n ad p c t ad' c' Lt S)).
  assert (Sp : aead_seal key n ad' p' = c' ++ T).
  { rewrite ET. unfold c'. pose proof (seal_split key n ad p c t Lt S) as (-> & _ & _). rewrite swapped_real by exact Lp. reflexivity. }
  assert (I : In T (tags k p p' c t)).
  { unfold tags. fold ad ad' c'. apply in_map_iff. exists (point_of key n). split; [reflexivity|]. unfold point_of, clamp. rewrite <- clamp_mask. apply within_all. }
  assert (Lc : length c' = length p') by (unfold c', swapped; rewrite map_length, seq_length; reflexivity).
  destruct (first_in T _ I) as (a & b & E & Na).
  assert (Ha : forall g, In g a -> length g = 16%nat).
  { intros g Ig. assert (X : In g (tags k p p' c t)) by (rewrite E; apply in_or_app; left; exact Ig). apply in_map_iff in X as (x & <- & _). apply moved_length. }
  assert (Lab : (length a < length (tags k p p' c t))%nat) by (rewrite E, app_length; cbn [length]; lia).
  exists (length a).
  destruct (patient m key iv k p' (concat (map (fun g => on_wire (with_tag c' g)) b) ++ rest) Bk L (map (with_tag c') a) (firstn (length a) ns) cl K Np Bf) as (c1 & c2 & V & R).
  - apply Forall_forall. intros f If. apply in_map_iff in If as (g & <- & Ig). cbn [with_tag f_body f_type f_major f_minor]. split.
    + unfold zlen. rewrite app_length, (Ha g Ig), Lc. unfold legal_fragment, zlen in L. lia.
    + intros q Pq. unfold protects in Pq. fold n in Pq. apply Na.
      assert (Lq : zlen q = zlen p').
      { apply (f_equal zlen) in Pq. unfold zlen in Pq. rewrite aead_seal_length, app_length, (Ha g Ig), Lc in Pq. unfold zlen. lia. }
      rewrite Lq in Pq. fold ad' in Pq. symmetry in Pq. pose proof (sealing_tag key n ad' c' g (conj (Ha g Ig) (ex_intro _ q Pq))) as X. rewrite <- ET in X. rewrite X. exact Ig.
  - rewrite firstn_length, map_length. lia.
  - rewrite St, E, map_app, concat_app. cbn [map concat]. rewrite !map_map, <- !app_assoc. f_equal. f_equal.
    unfold on_wire, with_tag, sealed_record, e_record. cbn [f_body f_type f_major f_minor]. fold n ad'. rewrite Sp. reflexivity.
  - exists c1, c2. split; [exact Lab|]. split; [exact V|exact R].
Qed.
Theorem guessed : forall k p p' c t, legal_fragment p' -> (length p' <= length p)%nat -> length t = 16%nat -> k + 1 < 2 ^ 64 ->
  exists attempts, Z.of_nat (length attempts) = 2 ^ 106 /\ Forall (fun a => length a = 16%nat) attempts /\
  forall m key iv cl ns rest, keyed m (c_reader cl) key iv k -> no_pending (c_reader cl) -> c_buf cl = [] ->
    aead_seal key (rfc_nonce iv k) (rfc_ad k ApplicationDataTy x03 x03 (zlen p)) p = c ++ t -> (length attempts <= length ns)%nat ->
    stream (r_src (c_reader cl)) = concat (map (fun a => on_wire (with_tag (swapped c p p') a)) attempts) ++ rest ->
    exists n c1 c2, (n < length attempts)%nat /\ vain m (firstn n ns) cl c1 /\ client_read m (length p') c1 = (Ok p', c2).
Proof.
  intros k p p' c t L Lp Lt Bk. exists (tags k p p' c t). destruct (tags_length k p p' c t) as (A & B). split; [exact A|]. split; [exact B|]. apply tags_work; assumption.
Qed.
