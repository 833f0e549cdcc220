(** Debug and release builds, side by side: the handshake, and histories of calls. *)
From Verif Require Import Spec_Mode P_Util P_Word P_Chacha P_RecordW P_Aead P_Mode.
From Coq Require Import ZifyBool ZifyNat ZifyN.
Local Open Scope list_scope.
Local Open Scope Z_scope.

(** cipher objects of the two builds *)
Definition EW (e1 e2 : encryptor) : Prop := e1 = e2 \/ exists key, e1 = new_encryptor Debug key /\ e2 = new_encryptor Release key.
Definition ER (d1 d2 : decryptor) : Prop := d1 = d2 \/ exists key, d1 = new_decryptor Debug key /\ d2 = new_decryptor Release key.
Lemma EW_refl e : EW e e. Proof. left. reflexivity. Qed.
Lemma ER_refl d : ER d d. Proof. left. reflexivity. Qed.
Lemma EW_dle e1 e2 n d a : EW e1 e2 -> dle (e1 n d a) (e2 n d a).
Proof. intros [->|(key & -> & ->)]; [apply dle_refl|apply dle_aead_encrypt]. Qed.
Lemma ER_dle d1 d2 n d a : ER d1 d2 -> dc_mac_len d1 = dc_mac_len d2 /\ dle (dc_decrypt d1 n d a) (dc_decrypt d2 n d a).
Proof. intros [->|(key & -> & ->)]; (split; [reflexivity|]); [apply dle_refl|apply dle_aead_decrypt]. Qed.

Notation RWs := (RW EW).
Notation RRs := (RR ER).
Notation RCs := (RC EW ER).
Notation yes := (fun _ => True).

Lemma sim_bind_on {S A B} Q R (a b : M S A) (f g : A -> M S B) :
  sim Q R a b -> (forall x s s', a s = (Ok x, s') -> sim Q R (f x) (g x)) -> sim Q R (mbind a f) (mbind b g).
Proof.
  intros H K s1 s2 E. unfold mbind. specialize (fun x s' => K x s1 s'). destruct (H s1 s2 E) as [[P X]|[P X]]; destruct (a s1) as [x t1], (b s2) as [y t2]; cbn [fst snd] in *.
  - subst x. left. split; [reflexivity|]. cbn [snd]. destruct X as [->|X]; [left; reflexivity|right; exact X].
  - subst y. destruct x; try (right; split; [reflexivity|exact X]). apply (K _ _ eq_refl), X.
Qed.
Lemma ck_range x : 0 <= x < 2 ^ 64 -> (forall m, ck m 64 (x + 1) = Ok (x + 1) /\ 0 <= x + 1 < 2 ^ 64) \/ (x = 2 ^ 64 - 1 /\ ck Debug 64 (x + 1) = Panic).
Proof.
  intros H. unfold ck. destruct (Z.eq_dec x (2 ^ 64 - 1)) as [E|E]; [right; split; [exact E|]|left; intros m; split; [|lia]].
  - replace ((0 <=? x + 1) && (x + 1 <? 2 ^ 64)) with false by (clear - E; lia). reflexivity.
  - replace ((0 <=? x + 1) && (x + 1 <? 2 ^ 64)) with true by (clear - E H; lia). reflexivity.
Qed.
Lemma sim_w_bump (Q : writer -> Prop) : (forall w, w_count w = 2 ^ 64 - 1 -> Q w) -> sim Q RWs (w_bump Debug) (w_bump Release).
Proof.
  intros HQ w1 w2 H. pose proof (RW_out _ _ _ H) as (A & B & C & D & E). destruct H as [_ [K Kc]]. unfold w_bump. rewrite C.
  destruct (ck_range _ Kc) as [G|[G G']].
  - right. destruct (G Debug) as [-> R], (G Release) as [-> _]. split; [reflexivity|]. split; [unfold seen_writer; cbn; congruence|split; [exact K|exact R]].
  - left. rewrite G'. split; [reflexivity|right]. apply HQ. cbn [snd]. congruence.
Qed.
Lemma sim_r_bump (Q : reader -> Prop) : (forall r, r_count r = 2 ^ 64 - 1 -> Q r) -> sim Q RRs (r_bump Debug) (r_bump Release).
Proof.
  intros HQ r1 r2 H. pose proof (RR_out _ _ _ H) as (A & B & C & D). destruct H as [_ [K Kc]]. unfold r_bump. rewrite B.
  destruct (ck_range _ Kc) as [G|[G G']].
  - right. destruct (G Debug) as [-> R], (G Release) as [-> _]. split; [reflexivity|]. split; [unfold seen_reader; cbn; congruence|split; [exact K|exact R]].
  - left. rewrite G'. split; [reflexivity|right]. apply HQ. cbn [snd]. congruence.
Qed.

(** what follows [protect] in [write_record] *)
Definition send_frag (m : mode) (r : record) (frag : bytes) : M writer unit :=
  if ENC_RECORD_MAX_LEN <? zlen frag then mfail Panic else
  do* _ := write_all [z2b (content_type_code (rc_type r))] in
  do* _ := write_all [rc_major r] in
  do* _ := write_all [rc_minor r] in
  do* _ := write_all (be 2 (zlen frag)) in
  do* _ := write_all frag in
  w_bump m.
Lemma write_record_eq m r : write_record m r = (do* frag := protect r in send_frag m r frag).
Proof. reflexivity. Qed.
Lemma sim_send_frag (Q : writer -> Prop) r f : (forall w, w_count w = 2 ^ 64 - 1 -> Q w) -> sim Q RWs (send_frag Debug r f) (send_frag Release r f).
Proof.
  intros HQ. unfold send_frag. destruct (_ <? _); [apply sim_fail|].
  repeat (apply sim_bind; [apply sim_write_all|intros _]). apply sim_w_bump, HQ.
Qed.
(** ** Instance 1: any panic of the debug build is excused *)
Lemma sim_protect r : sim yes RWs (protect r) (protect r).
Proof.
  intros w1 w2 H. pose proof (RW_out _ _ _ H) as (A & B & C & D & E). pose proof H as [_ [K Kc]]. unfold protect. rewrite C, D.
  destruct (w_enc w1) as [e1|], (w_enc w2) as [e2|] eqn:E2; cbn [opt_rel] in K; try contradiction; [|right; split; [reflexivity|exact H]].
  cbv zeta. destruct (EW_dle e1 e2 (seq_nonce (w_count w2) (w_iv w2)) (rc_fragment r) (seq_ad (w_count w2) (rc_type r) (rc_major r) (rc_minor r) (zlen (rc_fragment r))) K) as [-> | ->];
    [left; split; [reflexivity|right; exact I]|]. right.
  destruct (e2 _ _ _); (split; [reflexivity|]); cbn [snd]; try exact H.
  split; [unfold seen_writer; cbn; congruence|]. split; [exact K|exact Kc].
Qed.
Lemma sim_record1 r : sim yes RWs (write_record Debug r) (write_record Release r).
Proof. rewrite !write_record_eq. apply sim_bind; [apply sim_protect|intros f; apply sim_send_frag; intros; exact I]. Qed.
Lemma unprotect_dle t maj min f r1 r2 : RRs r1 r2 -> dle (unprotect t maj min f r1) (unprotect t maj min f r2).
Proof.
  intros H. pose proof (RR_out _ _ _ H) as (A & B & C & D). destruct H as [_ [K Kc]]. unfold unprotect. rewrite B, D.
  destruct (r_dec r1) as [d1|], (r_dec r2) as [d2|]; cbn [opt_rel] in K; try contradiction; [|apply dle_refl]. cbv zeta.
  destruct (ER_dle d1 d2 (seq_nonce (r_count r2) (r_iv r2)) f (seq_ad (r_count r2) t maj min (zlen f - dc_mac_len d1)) K) as [M1 M2]. rewrite M1 in *.
  destruct (_ <? _); [apply dle_refl|]. apply dle_bind; [exact M2|intros; apply dle_refl].
Qed.
(** the record read, given what [unprotect] says *)
Lemma sim_read_record (Q : reader -> Prop) : (forall r, r_count r = 2 ^ 64 - 1 -> Q r) ->
  (forall t maj min f, zlen f <= ENC_RECORD_MAX_LEN -> sim Q RRs (fun r => (unprotect t maj min f r, r)) (fun r => (unprotect t maj min f r, r))) ->
  sim Q RRs (read_record Debug) (read_record Release).
Proof.
  intros HQ HU. unfold read_record. apply sim_bind; [apply sim_r_read|intros ty].
  destruct (from_code _ _ _) as [t|]; [|apply sim_fail].
  apply sim_bind; [apply sim_r_read|intros maj]. apply sim_bind; [apply sim_r_read|intros min]. apply sim_bind; [apply sim_r_read|intros len].
  destruct (ENC_RECORD_MAX_LEN <? be_val len) eqn:EL; [apply sim_fail|].
  apply sim_bind_on; [apply sim_r_read|]. intros f r r' E. apply sim_bind; [|intros rec; apply sim_bind; [apply sim_r_bump, HQ|intros _; apply sim_ret]].
  apply HU. unfold r_read in E. destruct (fill_exact (r_src r) (Z.to_nat (be_val len))) as [x s'] eqn:EF. injection E as -> _.
  pose proof (fill_never_short _ _ _ _ EF) as L. unfold zlen, ENC_RECORD_MAX_LEN in *. rewrite L. clear - EL. lia.
Qed.
Lemma sim_read_record1 : sim yes RRs (read_record Debug) (read_record Release).
Proof.
  apply sim_read_record; [intros; exact I|]. intros t maj min f _ r1 r2 H. cbn [fst snd].
  destruct (unprotect_dle t maj min f r1 r2 H) as [->|E]; [left; split; [reflexivity|right; exact I]|right; split; [exact E|exact H]].
Qed.

(** ** Instance 2: only an exhausted counter is excused *)
Definition out_w (w : writer) : Prop := w_count w = 2 ^ 64 - 1.
Definition out_r (r : reader) : Prop := r_count r = 2 ^ 64 - 1.

Definition okp {A} (a : res A) : Prop := (exists x, a = Ok x) \/ a = Panic.
Lemma okp_ok {A} (x : A) : okp (Ok x). Proof. left. exists x. reflexivity. Qed.
Lemma okp_ck w x : exists y, ck Release w x = Ok y.
Proof. unfold ck. destruct (_ && _); eexists; reflexivity. Qed.
Lemma okp_bind {A B} (a : res A) (f : A -> res B) : okp a -> (forall x, okp (f x)) -> okp (rbind a f).
Proof. intros [[x ->]| ->] H; [apply H|right; reflexivity]. Qed.
Lemma okp_let {A B} (e : A) (f : A -> res B) : (forall x, okp (f x)) -> okp (let x := e in f x).
Proof. intros H. apply H. Qed.
Ltac ok1 := repeat lazymatch goal with
  | |- okp (rbind _ _) => apply okp_bind; [|intros ?]
  | |- okp (let x := ?e in @?f x) => apply (okp_let e f); intros ?
  | |- okp (Ok _) => apply okp_ok
  | |- okp (mul32 Release _ _) => left; apply okp_ck
  | |- okp (add32 Release _ _) => left; apply okp_ck
  | |- okp (mul64 Release _ _) => left; apply okp_ck
  | |- okp (add64 Release _ _) => left; apply okp_ck
  | |- okp (dot5 Release _ _ _ _ _ _ _ _ _ _) => unfold dot5
  end.
Lemma okp_compute_block p b x : okp (compute_block Release p b x).
Proof. unfold compute_block. ok1. Qed.
Lemma okp_finalize p : okp (finalize Release p).
Proof. unfold finalize. ok1. Qed.
Lemma okp_poly bs : forall p, okp (poly_blocks Release p bs).
Proof.
  induction bs as [|b bs IH]; intros p; cbn [poly_blocks]; [apply okp_ok|]. apply okp_bind; [|intros q; apply IH].
  destruct (Nat.eqb _ _); apply okp_compute_block.
Qed.
Lemma next_release v : exists b v', chacha_next Release v = Ok (b, v') /\ length b = 64%nat.
Proof.
  unfold chacha_next. destruct (okp_ck 32 (at_ v 12 + 1)) as [y ->]. cbn [rbind]. exists (write_u32_le (round20 v)), (upd 12 y v). split; [reflexivity|].
  unfold write_u32_le, round20. cbn [map seq flat_map concat app length]. reflexivity.
Qed.
Lemma chunks_fuel_le {A} k : forall n (l : list A), Forall (fun c => (length c <= k)%nat) (chunks_fuel n k l).
Proof. induction n as [|n IH]; intros l; cbn [chunks_fuel]; [constructor|]. destruct l; [constructor|]. constructor; [rewrite firstn_length; lia|apply IH]. Qed.
Lemma chunks_fuel_concat {A} k : (0 < k)%nat -> forall n (l : list A), (length l <= n)%nat -> concat (chunks_fuel n k l) = l.
Proof.
  intros Hk. induction n as [|n IH]; intros l Hl; cbn [chunks_fuel]; [destruct l; [reflexivity|cbn in Hl; lia]|].
  destruct l as [|x l]; [reflexivity|]. cbn [concat]. rewrite IH; [apply firstn_skipn|]. rewrite skipn_length. cbn [length] in *. lia.
Qed.
Lemma chunks_release cs : Forall (fun c : bytes => (length c <= 64)%nat) cs -> forall v, exists out v', chacha_chunks Release v cs = Ok (out, v') /\ length out = length (concat cs).
Proof.
  induction 1 as [|c cs Hc _ IH]; intros v; cbn [chacha_chunks]; [exists [], v; split; reflexivity|].
  destruct (next_release v) as (b & v1 & -> & L). cbn [rbind]. destruct (IH v1) as (out & v2 & -> & L2). cbn [rbind].
  eexists _, _. split; [reflexivity|]. cbn [concat]. rewrite !app_length, xor_zip_length, L, L2. lia.
Qed.
Lemma encrypt_release v d : exists out v', chacha_encrypt Release v d = Ok (out, v') /\ length out = length d.
Proof.
  destruct (chunks_release (chunks 64 d)) with (v := v) as (out & v' & E & L); [apply chunks_fuel_le|].
  exists out, v'. split; [exact E|]. rewrite L. unfold chunks. rewrite chunks_fuel_concat; [reflexivity|lia|lia].
Qed.
(** without room for the plaintext, a release build still returns something at least as long *)
Lemma aead_release k n d a : aead_encrypt Release k n d a = Panic \/ exists c, aead_encrypt Release k n d a = Ok c /\ zlen d <= zlen c.
Proof.
  unfold aead_encrypt, chacha_new. destruct (negb _); [left; reflexivity|]. destruct (negb _); [left; reflexivity|]. cbn [rbind].
  destruct (next_release ([1634760805; 857760878; 2036477234; 1797285236] ++ read_u32_le k ++ [0] ++ read_u32_le n)) as (b & v & -> & _). cbn [rbind].
  destruct (encrypt_release v d) as (out & v' & -> & L). cbn [rbind]. unfold compute_mac, authenticate.
  destruct (okp_poly (chunks 16 (mac_input out a)) (poly_new (slice b 0 16) (slice b 16 32))) as [[p ->]| ->]; cbn [rbind]; [|left; reflexivity].
  destruct (okp_finalize p) as [[t ->]| ->]; cbn [rbind]; [|left; reflexivity]. right. eexists. split; [reflexivity|].
  unfold zlen. rewrite app_length, L. lia.
Qed.
Lemma fits_or (d : bytes) : fits d \/ ENC_RECORD_MAX_LEN < zlen d.
Proof.
  destruct (Z_le_gt_dec (zlen d) (2 ^ 24)) as [H|H]; [left; apply fits_record, H|right; unfold ENC_RECORD_MAX_LEN; clear - H; lia].
Qed.
Lemma EW_strict e1 e2 n d a : EW e1 e2 -> length n = 12%nat ->
  e1 n d a = e2 n d a \/ (e1 n d a = Panic /\ exists c, e2 n d a = Ok c /\ ENC_RECORD_MAX_LEN < zlen c).
Proof.
  intros [->|(key & -> & ->)] Hn; [left; reflexivity|]. unfold new_encryptor.
  destruct (Nat.eqb (length key) 32) eqn:EK.
  2:{ left. unfold aead_encrypt, chacha_new. rewrite EK. reflexivity. }
  destruct (fits_or d) as [F|F].
  - left. apply Nat.eqb_eq in EK. rewrite !aead_encrypt_spec by assumption. reflexivity.
  - destruct (dle_aead_encrypt key n d a) as [E|E]; [|left; exact E].
    destruct (aead_release key n d a) as [E2|(c & E2 & L)]; [left; congruence|]. right. split; [exact E|]. exists c. split; [exact E2|lia].
Qed.
Lemma sim_record2 r : sim out_w RWs (write_record Debug r) (write_record Release r).
Proof.
  rewrite !write_record_eq. intros w1 w2 H. pose proof (RW_out _ _ _ H) as (A & B & C & D & E). pose proof H as [_ [K Kc]].
  unfold mbind, protect. rewrite C, D.
  destruct (w_enc w1) as [e1|] eqn:E1, (w_enc w2) as [e2|] eqn:E2; cbn [opt_rel] in K; try contradiction.
  2:{ apply (sim_send_frag out_w r (rc_fragment r)); [intros w X; exact X|exact H]. }
  cbv zeta. set (n := seq_nonce (w_count w2) (w_iv w2)). set (a := seq_ad (w_count w2) (rc_type r) (rc_major r) (rc_minor r) (zlen (rc_fragment r))).
  destruct (EW_strict e1 e2 n (rc_fragment r) a K (seq_nonce_length _ _)) as [-> |(-> & c & -> & L)].
  - destruct (e2 n (rc_fragment r) a) as [f| | |]; try (right; split; [reflexivity|exact H]).
    apply (sim_send_frag out_w r f); [intros w X; exact X|]. split; [unfold seen_writer; cbn; congruence|split; [exact K|exact Kc]].
  - left. split; [reflexivity|left]. unfold send_frag. replace (ENC_RECORD_MAX_LEN <? zlen c) with true by (clear - L; lia). reflexivity.
Qed.
Lemma ER_strict d1 d2 n d a : ER d1 d2 -> length n = 12%nat -> zlen d <= ENC_RECORD_MAX_LEN ->
  dc_mac_len d1 = dc_mac_len d2 /\ dc_decrypt d1 n d a = dc_decrypt d2 n d a.
Proof.
  intros [->|(key & -> & ->)] Hn Hd; [split; reflexivity|]. split; [reflexivity|]. cbn [dc_decrypt new_decryptor].
  assert (F : fits d) by (apply fits_record; unfold ENC_RECORD_MAX_LEN in Hd; clear - Hd; lia).
  destruct (Nat.eqb (length key) 32) eqn:EK.
  2:{ unfold aead_decrypt, chacha_new. rewrite EK. reflexivity. }
  apply Nat.eqb_eq in EK.
  destruct (open_outcomes Debug key n a d EK Hn F) as [[p E]|E]; destruct (open_outcomes Release key n a d EK Hn F) as [[p' E']|E']; rewrite E, E'; try reflexivity.
  - apply (open_iff_seal Debug key n a d p EK Hn F) in E. apply (open_iff_seal Release key n a d p EK Hn F) in E. congruence.
  - apply (open_iff_seal Debug key n a d p EK Hn F) in E. apply (open_iff_seal Release key n a d p EK Hn F) in E. congruence.
  - apply (open_iff_seal Release key n a d p' EK Hn F) in E'. apply (open_iff_seal Debug key n a d p' EK Hn F) in E'. congruence.
Qed.
Lemma sim_read_record2 : sim out_r RRs (read_record Debug) (read_record Release).
Proof.
  apply sim_read_record; [intros r X; exact X|]. intros t maj min f L r1 r2 H. cbn [fst snd]. right. split; [|exact H].
  pose proof (RR_out _ _ _ H) as (A & B & C & D). destruct H as [_ [K Kc]]. unfold unprotect. rewrite B, D.
  destruct (r_dec r1) as [d1|], (r_dec r2) as [d2|]; cbn [opt_rel] in K; try contradiction; [|reflexivity]. cbv zeta.
  destruct (ER_strict d1 d2 (seq_nonce (r_count r2) (r_iv r2)) f (seq_ad (r_count r2) t maj min (zlen f - dc_mac_len d1)) K (seq_nonce_length _ _) L) as [M1 M2].
  rewrite M1 in *. rewrite M2. reflexivity.
Qed.

(** ** The handshake *)
Lemma sim_draw f : @sim rng int256 yes eq (get_random_loop Debug f) (get_random_loop Release f).
Proof.
  induction f as [|f IH]; cbn [get_random_loop]; [apply sim_fail|]. apply sim_bind; [intros g1 g2 ->; right; split; reflexivity|intros x].
  apply sim_bind; [apply sim_lift_dle, dle_reduce_once|intros xx]. destruct (_ =? _); [apply sim_ret|exact IH].
Qed.
Lemma sim_random : @sim rng int256 yes eq (get_random_x Debug) (get_random_x Release).
Proof. intros g1 g2 ->. apply (sim_draw (S (length g2)) g2 g2 eq_refl). Qed.
Lemma sim_keys d : @sim rng (bytes * bytes) yes eq (compute_keys Debug d) (compute_keys Release d).
Proof.
  unfold compute_keys. apply sim_bind; [apply sim_lift|intros [k rest]]. apply sim_bind; [apply sim_lift_dle, dle_decode|intros [gy|]; [|apply sim_fail]].
  cbv zeta. apply sim_bind; [apply sim_random|intros x].
  apply sim_bind; [apply sim_lift_dle, dle_mult_scalar|intros gx]. apply sim_bind; [apply sim_lift_dle, dle_normalize|intros gx'].
  apply sim_bind; [apply sim_lift_dle, dle_mult_scalar|intros gxy]. apply sim_bind; [apply sim_lift_dle, dle_normalize|intros gxy'].
  apply sim_bind; [apply sim_lift|intros pub]. apply sim_bind; [apply sim_lift|intros pub']. apply sim_ret.
Qed.
Notation QT := (QC yes yes).
Lemma QT_all c : QT c. Proof. left. exact I. Qed.
Lemma sim_any {A} (Q : client -> Prop) (a b : M client A) : (forall c, Q c) -> sim yes RCs a b -> sim Q RCs a b.
Proof.
  intros HQ H c1 c2 E. destruct (H c1 c2 E) as [[P X]|P]; [left; split; [exact P|]|right; exact P]. destruct X as [X|X]; [left; exact X|right; apply HQ].
Qed.
Lemma sim_rng2 {A} (a b : M rng A) : sim yes eq a b -> sim QT RCs (on_rng a) (on_rng b).
Proof.
  intros H c1 c2 (E1 & E2 & E3 & E4). unfold on_rng. specialize (H _ _ E3).
  destruct (a (c_rng c1)) as [x g1], (b (c_rng c2)) as [y g2]. cbn [fst snd] in *.
  destruct H as [[-> X]|[-> X]]; [left; split; [reflexivity|right; apply QT_all]|right; split; [reflexivity|]].
  split; [exact E1|split; [exact E2|split; [exact X|exact E4]]].
Qed.
Lemma sim_dle {A} (x y : res A) : dle x y -> sim QT RCs (mlift x) (mlift y).
Proof. intros H. apply sim_any; [apply QT_all|apply sim_lift_dle, H]. Qed.
Lemma sim_expect {A} (pick : handshake -> option A) : sim QT RCs (expect Debug pick) (expect Release pick).
Proof.
  apply sim_bind; [apply sim_on_reader, sim_rhandshake, sim_read_record1|intros h]. destruct (pick h); [apply sim_ret|apply sim_fail].
Qed.
Lemma sim_hs_write h : sim QT RCs (on_writer (write_handshake Debug h)) (on_writer (write_handshake Release h)).
Proof. apply sim_on_writer, sim_whandshake, sim_record1. Qed.
Lemma sim_handshake : sim QT RCs (client_handshake Debug) (client_handshake Release).
Proof.
  unfold client_handshake.
  apply sim_bind; [apply sim_on_rng|intros cr]. apply sim_bind; [apply sim_lift|intros random]. apply sim_bind; [apply sim_lift|intros ch].
  apply sim_bind; [apply sim_hs_write|intros _]. apply sim_bind; [apply sim_expect|intros sh]. apply sim_bind; [apply sim_lift|intros _].
  apply sim_bind; [apply sim_expect|intros certs]. apply sim_bind; [apply sim_expect|intros skx].
  apply sim_bind; [apply sim_rng2, sim_keys|intros [kd pms]]. apply sim_bind; [apply sim_expect|intros _]. apply sim_bind; [apply sim_lift|intros cke].
  apply sim_bind; [apply sim_hs_write|intros _]. apply sim_bind; [apply sim_on_writer, sim_wccs, sim_record1|intros _].
  apply sim_bind; [apply sim_dle, dle_prf_bytes|intros ms]. apply sim_bind; [apply sim_dle, dle_prf_new|intros p0].
  apply sim_bind; [apply sim_dle, dle_get_bytes|intros [wk p1]].
  apply sim_bind; [apply sim_on_writer, sim_set_encryptor; first [exact EW_refl|right; exists wk; split; reflexivity]|intros _].
  apply sim_bind; [apply sim_dle, dle_get_bytes|intros [rk p2]]. apply sim_bind; [apply sim_dle, dle_get_bytes|intros [wiv p3]].
  apply sim_bind; [apply sim_dle, dle_get_bytes|intros [riv p4]].
  apply sim_bind; [apply sim_on_writer, sim_w_set_iv|intros _]. apply sim_bind; [apply sim_on_reader, sim_r_set_iv|intros _].
  apply sim_bind; [apply sim_lift|intros msgs]. apply sim_bind; [apply sim_dle, dle_sha256|intros vh].
  apply sim_bind; [apply sim_dle, dle_prf_bytes|intros cvd]. apply sim_bind; [apply sim_lift|intros fin].
  apply sim_bind; [apply sim_hs_write|intros _]. apply sim_bind; [apply sim_on_reader, sim_rccs, sim_read_record1|intros _].
  apply sim_bind; [apply sim_on_reader, sim_set_decryptor; first [exact ER_refl|right; exists rk; split; reflexivity]|intros _].
  apply sim_bind; [apply sim_expect|intros sfin]. apply sim_bind; [apply sim_lift|intros fb]. apply sim_bind; [apply sim_dle, dle_sha256|intros vh2].
  apply sim_bind; [apply sim_dle, dle_prf_bytes|intros svd]. apply sim_bind; [apply sim_dle, dle_compare|intros ok].
  destruct ok; [apply sim_ret|apply sim_fail].
Qed.
Lemma init_rel s p g : RCs (client_init s p g) (client_init s p g).
Proof.
  split; [|split; [|split; reflexivity]]; (split; [reflexivity|split; [exact I|cbn; lia]]).
Qed.
Lemma RC_seen c1 c2 : RCs c1 c2 -> seen c1 = seen c2.
Proof. intros ((E1 & _) & (E2 & _) & E3 & E4). unfold seen. congruence. Qed.
Lemma new_rel s p g : fst (client_new Debug s p g) <> Panic ->
  fst (client_new Debug s p g) = fst (client_new Release s p g) /\ RCs (snd (client_new Debug s p g)) (snd (client_new Release s p g)).
Proof.
  intros N. unfold client_new in *. destruct (sim_or_alert _ _ _ _ sim_record1 _ _ sim_handshake _ _ (init_rel s p g)) as [[P _]|H]; [contradiction (N P)|exact H].
Qed.

(** a debug build that does not panic is a release build *)
Lemma builds_new s p g x c : client_new Debug s p g = (x, c) -> x <> Panic -> exists c', client_new Release s p g = (x, c') /\ seen c' = seen c.
Proof.
  intros E N. destruct (new_rel s p g) as [H K]; rewrite E in *; [exact N|]. destruct (client_new Release s p g) as [y c']. cbn [fst snd] in *.
  exists c'. split; [congruence|]. symmetry. apply RC_seen, K.
Qed.
(** after construction they differ only when a counter has run out *)
Lemma builds_history s p g c : client_new Debug s p g = (Ok tt, c) -> exists c', client_new Release s p g = (Ok tt, c') /\ seen c' = seen c /\
  forall l, let (xs, d) := api_run Debug l c in let (ys, d') := api_run Release l c' in
    (xs = ys /\ (seen d = seen d' \/ In Panic xs)) \/
    (run_out d /\ exists us vs, xs = us ++ [Panic] /\ ys = us ++ vs).
Proof.
  intros E. destruct (new_rel s p g) as [H K]; rewrite E in *; [discriminate|]. destruct (client_new Release s p g) as [y c']. cbn [fst snd] in *.
  exists c'. split; [congruence|]. split; [symmetry; apply RC_seen, K|]. intros l.
  pose proof (sim_history EW ER EW_refl ER_refl out_w out_r sim_record2 sim_read_record2 l c c' K) as S1.
  destruct (api_run Debug l c) as [xs d], (api_run Release l c') as [ys d']. cbn [fst snd] in S1.
  destruct S1 as [[-> R]|(us & vs & -> & -> & [->|R])].
  - left. split; [reflexivity|left; apply RC_seen, R].
  - left. split; [reflexivity|right; apply in_or_app; right; left; reflexivity].
  - right. split; [exact R|]. exists us, vs. split; reflexivity.
Qed.
