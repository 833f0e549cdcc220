(** Debug and release builds, side by side. *)
From Verif Require Import Spec_Mode P_Util.
From Coq Require Import ZifyBool ZifyNat ZifyN.
Local Open Scope list_scope.
Local Open Scope Z_scope.

(** ** Pure functions *)
Definition dle {A} (a b : res A) : Prop := a = Panic \/ a = b.
Lemma dle_refl {A} (a : res A) : dle a a.
Proof. right. reflexivity. Qed.
Lemma dle_bind {A B} (a b : res A) (f g : A -> res B) : dle a b -> (forall x, dle (f x) (g x)) -> dle (rbind a f) (rbind b g).
Proof. intros [->| ->] H; [left; reflexivity|]. destruct b; cbn [rbind]; try apply dle_refl. apply H. Qed.
Lemma dle_ck w x : dle (ck Debug w x) (ck Release w x).
Proof. unfold ck. destruct (_ && _); [apply dle_refl|left; reflexivity]. Qed.
Lemma dle_assert b : dle (dassert Debug b) (dassert Release b).
Proof. unfold dassert. destruct b; [apply dle_refl|left; reflexivity]. Qed.
Create HintDb dle discriminated.
#[local] Hint Resolve dle_refl dle_ck dle_assert : dle.
Lemma dle_let {A B} (e : A) (f g : A -> res B) : (forall x, dle (f x) (g x)) -> dle (let x := e in f x) (let x := e in g x).
Proof. intros H. apply H. Qed.
Ltac dl := repeat lazymatch goal with
  | |- dle (rbind _ _) (rbind _ _) => apply dle_bind; [|intros ?]
  | |- dle (let x := ?e in @?f x) (let y := _ in @?g y) => apply (dle_let e f g); intros ?
  | |- dle (match ?x with _ => _ end) (match ?x with _ => _ end) => destruct x
  | |- dle (Ok ?a) (Ok ?a) => apply dle_refl
  | |- dle (Err ?a) (Err ?a) => apply dle_refl
  | |- dle Panic _ => apply dle_refl
  | |- dle ?a ?a => apply dle_refl
  | |- dle _ _ => solve [auto 2 with dle nocore]
  end.

Lemma dle_mul32 a b : dle (mul32 Debug a b) (mul32 Release a b). Proof. apply dle_ck. Qed.
Lemma dle_add32 a b : dle (add32 Debug a b) (add32 Release a b). Proof. apply dle_ck. Qed.
Lemma dle_mul64 a b : dle (mul64 Debug a b) (mul64 Release a b). Proof. apply dle_ck. Qed.
Lemma dle_add64 a b : dle (add64 Debug a b) (add64 Release a b). Proof. apply dle_ck. Qed.
#[local] Hint Resolve dle_mul32 dle_add32 dle_mul64 dle_add64 : dle.
Lemma dle_dot5 a b c d e f g h i j : dle (dot5 Debug a b c d e f g h i j) (dot5 Release a b c d e f g h i j).
Proof. unfold dot5. dl. Qed.
#[local] Hint Resolve dle_dot5 : dle.
Lemma dle_compute_block p b x : dle (compute_block Debug p b x) (compute_block Release p b x).
Proof. unfold compute_block. dl. Qed.
#[local] Hint Resolve dle_compute_block : dle.
Lemma dle_finalize p : dle (finalize Debug p) (finalize Release p).
Proof. unfold finalize. dl. Qed.
#[local] Hint Resolve dle_finalize : dle.
Lemma dle_poly_blocks bs : forall p, dle (poly_blocks Debug p bs) (poly_blocks Release p bs).
Proof. induction bs as [|b bs IH]; intros p; cbn [poly_blocks]; [apply dle_refl|]. apply dle_bind; [dl|intros q; apply IH]. Qed.
#[local] Hint Resolve dle_poly_blocks : dle.
Lemma dle_authenticate msg r s : dle (authenticate Debug msg r s) (authenticate Release msg r s).
Proof. unfold authenticate. dl. Qed.
Lemma dle_compute_mac k e a : dle (compute_mac Debug k e a) (compute_mac Release k e a).
Proof. apply dle_authenticate. Qed.
Lemma dle_chacha_next v : dle (chacha_next Debug v) (chacha_next Release v).
Proof. unfold chacha_next. dl. Qed.
#[local] Hint Resolve dle_compute_mac dle_chacha_next : dle.
Lemma dle_chacha_chunks cs : forall v, dle (chacha_chunks Debug v cs) (chacha_chunks Release v cs).
Proof.
  induction cs as [|c cs IH]; intros v; cbn [chacha_chunks]; [apply dle_refl|]. apply dle_bind; [dl|intros [nxt v']].
  apply dle_bind; [apply IH|intros [rest v'']]. apply dle_refl.
Qed.
Lemma dle_chacha_encrypt v d : dle (chacha_encrypt Debug v d) (chacha_encrypt Release v d).
Proof. apply dle_chacha_chunks. Qed.
#[local] Hint Resolve dle_chacha_encrypt : dle.
Lemma dle_aead_encrypt k n d a : dle (aead_encrypt Debug k n d a) (aead_encrypt Release k n d a).
Proof. unfold aead_encrypt. dl. Qed.
Lemma dle_aead_decrypt k n d a : dle (aead_decrypt Debug k n d a) (aead_decrypt Release k n d a).
Proof. unfold aead_decrypt. dl. Qed.
Lemma dle_sha_pad msg : dle (sha_pad Debug msg) (sha_pad Release msg).
Proof. unfold sha_pad. dl. Qed.
#[local] Hint Resolve dle_sha_pad : dle.
Lemma dle_sha256 msg : dle (sha256 Debug msg) (sha256 Release msg).
Proof. unfold sha256. dl. Qed.
#[local] Hint Resolve dle_sha256 : dle.
Lemma dle_hmac k msg : dle (hmac_sha256 Debug k msg) (hmac_sha256 Release k msg).
Proof. unfold hmac_sha256. dl. Qed.
#[local] Hint Resolve dle_hmac : dle.
Lemma dle_prf_new s d : dle (prf_new Debug s d) (prf_new Release s d).
Proof. unfold prf_new. dl. Qed.
Lemma dle_next_block p : dle (next_block Debug p) (next_block Release p).
Proof. unfold next_block. dl. Qed.
#[local] Hint Resolve dle_prf_new dle_next_block : dle.
Lemma dle_get_loop f : forall n ret p, dle (get_loop Debug f n ret p) (get_loop Release f n ret p).
Proof.
  induction f as [|f IH]; intros n ret p; cbn [get_loop]; destruct (_ <? _)%nat; try apply dle_refl.
  apply dle_bind; [dl|intros [nb q]]. destruct (_ <? _)%nat; [apply IH|apply dle_refl].
Qed.
#[local] Hint Resolve dle_get_loop : dle.
Lemma dle_get_bytes n p : dle (get_bytes Debug n p) (get_bytes Release n p).
Proof. unfold get_bytes. dl. Qed.
#[local] Hint Resolve dle_get_bytes : dle.
Lemma dle_prf_bytes s l n : dle (prf_bytes Debug s l n) (prf_bytes Release s l n).
Proof. unfold prf_bytes. dl. Qed.
Lemma dle_compare a b : dle (crypto_compare Debug a b) (crypto_compare Release a b).
Proof. unfold crypto_compare. dl. Qed.
#[local] Hint Resolve dle_prf_bytes dle_compare : dle.

Lemma dle_reduce_once a c : dle (reduce_once Debug a c) (reduce_once Release a c).
Proof. unfold reduce_once. dl. Qed.
Lemma dle_reduce_once_zero a : dle (reduce_once_zero Debug a) (reduce_once_zero Release a).
Proof. apply dle_reduce_once. Qed.
#[local] Hint Resolve dle_reduce_once dle_reduce_once_zero : dle.
Lemma dle_iadd a b : dle (iadd Debug a b) (iadd Release a b).
Proof. unfold iadd. dl. Qed.
Lemma dle_idouble a : dle (idouble Debug a) (idouble Release a).
Proof. apply dle_iadd. Qed.
Lemma dle_isub a b : dle (isub Debug a b) (isub Release a b).
Proof. unfold isub. dl. Qed.
#[local] Hint Resolve dle_iadd dle_idouble dle_isub : dle.
Lemma dle_nist v : dle (nist_reduce Debug v) (nist_reduce Release v).
Proof. unfold nist_reduce. dl. Qed.
#[local] Hint Resolve dle_nist : dle.
#[local] Opaque mul_step carry_step ijs.
Lemma dle_imult a b : dle (imult Debug a b) (imult Release a b).
Proof. unfold imult. dl. Qed.
Lemma dle_isquare a : dle (isquare Debug a) (isquare Release a).
Proof. apply dle_imult. Qed.
#[local] Hint Resolve dle_imult dle_isquare : dle.
Lemma dle_square_n n : forall a, dle (square_n Debug a n) (square_n Release a n).
Proof. induction n as [|n IH]; intros a; cbn [square_n]; [apply dle_refl|]. apply dle_bind; [dl|apply IH]. Qed.
#[local] Hint Resolve dle_square_n : dle.
Lemma dle_z_n z n : dle (z_n Debug z n) (z_n Release z n).
Proof. unfold z_n. dl. Qed.
Lemma dle_z_1 z a : dle (z_1 Debug z a) (z_1 Release z a).
Proof. unfold z_1. dl. Qed.
#[local] Hint Resolve dle_z_n dle_z_1 : dle.
Lemma dle_iinverse a : dle (iinverse Debug a) (iinverse Release a).
Proof. unfold iinverse. dl. Qed.
#[local] Hint Resolve dle_iinverse : dle.
Lemma dle_normalize p : dle (normalize Debug p) (normalize Release p).
Proof. unfold normalize. dl. Qed.
Lemma dle_pdouble p : dle (pdouble Debug p) (pdouble Release p).
Proof. unfold pdouble. dl. Qed.
#[local] Hint Resolve dle_normalize dle_pdouble : dle.
Lemma dle_ppadd p q : dle (ppadd Debug p q) (ppadd Release p q).
Proof. unfold ppadd. dl. Qed.
#[local] Hint Resolve dle_ppadd : dle.
Lemma dle_scalar_step p n r ij : dle (scalar_step Debug p n r ij) (scalar_step Release p n r ij).
Proof. unfold scalar_step. destruct ij. dl. Qed.
Lemma dle_scalar_loop p n l : forall r, dle (scalar_loop Debug p n l r) (scalar_loop Release p n l r).
Proof. induction l as [|ij l IH]; intros r; cbn [scalar_loop]; [apply dle_refl|]. apply dle_bind; [apply dle_scalar_step|apply IH]. Qed.
Lemma dle_mult_scalar p n : dle (mult_scalar Debug p n) (mult_scalar Release p n).
Proof. apply dle_scalar_loop. Qed.
Lemma dle_decode d : dle (from_uncompressed_bytes Debug d) (from_uncompressed_bytes Release d).
Proof. unfold from_uncompressed_bytes. dl. Qed.
#[local] Hint Resolve dle_mult_scalar dle_decode : dle.

(** ** Stateful functions *)
(** [a] and [b] give the same result from related states, or [a] panics, and then [b] panics too or the state is one that [Q] excuses *)
Definition sim {S A} (Q : S -> Prop) (R : S -> S -> Prop) (a b : M S A) : Prop :=
  forall s1 s2, R s1 s2 -> (fst (a s1) = Panic /\ (fst (b s2) = Panic \/ Q (snd (a s1)))) \/ (fst (a s1) = fst (b s2) /\ R (snd (a s1)) (snd (b s2))).
Lemma sim_bind {S A B} Q R (a b : M S A) (f g : A -> M S B) :
  sim Q R a b -> (forall x, sim Q R (f x) (g x)) -> sim Q R (mbind a f) (mbind b g).
Proof.
  intros H K s1 s2 E. unfold mbind. destruct (H s1 s2 E) as [[P X]|[P X]]; destruct (a s1) as [x t1], (b s2) as [y t2]; cbn [fst snd] in *.
  - subst x. left. split; [reflexivity|]. cbn [snd]. destruct X as [->|X]; [left; reflexivity|right; exact X].
  - subst y. destruct x; try (right; split; [reflexivity|exact X]). apply K, X.
Qed.
Lemma sim_ret {S A} Q R (x : A) : @sim S A Q R (mret x) (mret x).
Proof. intros s1 s2 E. right. split; [reflexivity|exact E]. Qed.
Lemma sim_fail {S A} Q R (x : res A) : @sim S A Q R (mfail x) (mfail x).
Proof. intros s1 s2 E. right. split; [reflexivity|exact E]. Qed.
Lemma sim_lift {S A} Q R (x : res A) : @sim S A Q R (mlift x) (mlift x).
Proof. intros s1 s2 E. right. split; [reflexivity|exact E]. Qed.
Lemma sim_lift_dle {S A} (R : S -> S -> Prop) (x y : res A) : dle x y -> @sim S A (fun _ => True) R (mlift x) (mlift y).
Proof. intros [->| ->] s1 s2 E; [left; split; [reflexivity|right; exact I]|right; split; [reflexivity|exact E]]. Qed.
Lemma sim_fmap {S A B} Q R (f : A -> B) (a b : M S A) : sim Q R a b -> sim Q R (fmap f a) (fmap f b).
Proof. intros H. apply sim_bind; [exact H|intros x; apply sim_ret]. Qed.

Section Layers.
  Variables (EW : encryptor -> encryptor -> Prop) (ER : decryptor -> decryptor -> Prop).
  Hypothesis EW_refl : forall e, EW e e.
  Hypothesis ER_refl : forall d, ER d d.
  Variables (QW : writer -> Prop) (QR : reader -> Prop).
  Definition opt_rel {A} (E : A -> A -> Prop) (a b : option A) : Prop :=
    match a, b with Some x, Some y => E x y | None, None => True | _, _ => False end.
  Definition RW (w1 w2 : writer) : Prop := seen_writer w1 = seen_writer w2 /\ (opt_rel EW (w_enc w1) (w_enc w2) /\ 0 <= w_count w2 < 2 ^ 64).
  Definition RR (r1 r2 : reader) : Prop := seen_reader r1 = seen_reader r2 /\ (opt_rel ER (r_dec r1) (r_dec r2) /\ 0 <= r_count r2 < 2 ^ 64).
  Definition RC (c1 c2 : client) : Prop := RR (c_reader c1) (c_reader c2) /\ RW (c_writer c1) (c_writer c2) /\ c_rng c1 = c_rng c2 /\ c_buf c1 = c_buf c2.
  Definition QC (c : client) : Prop := QW (c_writer c) \/ QR (c_reader c).
  Hypothesis Hwr : forall r, sim QW RW (write_record Debug r) (write_record Release r).
  Hypothesis Hrr : sim QR RR (read_record Debug) (read_record Release).

  Lemma RW_out w1 w2 : RW w1 w2 -> w_out w1 = w_out w2 /\ w_plan w1 = w_plan w2 /\ w_count w1 = w_count w2 /\ w_iv w1 = w_iv w2 /\ w_log w1 = w_log w2.
  Proof. intros [E _]. unfold seen_writer in E. injection E as -> -> -> -> ->. repeat split. Qed.
  Lemma RR_out r1 r2 : RR r1 r2 -> r_src r1 = r_src r2 /\ r_count r1 = r_count r2 /\ r_buf r1 = r_buf r2 /\ r_iv r1 = r_iv r2.
  Proof. intros [E _]. unfold seen_reader in E. injection E as -> -> -> ->. repeat split. Qed.

  Lemma sim_write_all bs : sim QW RW (write_all bs) (write_all bs).
  Proof.
    intros w1 w2 H. pose proof (RW_out _ _ H) as (A & B & C & D & E). destruct H as [_ K]. right. unfold write_all.
    rewrite A, B, C, D, E. destruct bs; [split; [reflexivity|split; [unfold seen_writer; cbn [snd]; congruence|exact K]]|].
    destruct (w_plan w2) as [|[|k] p]; (split; [reflexivity|split; [reflexivity|exact K]]).
  Qed.
  Lemma sim_set_encryptor e1 e2 : EW e1 e2 -> sim QW RW (w_set_encryptor e1) (w_set_encryptor e2).
  Proof.
    intros X w1 w2 H. pose proof (RW_out _ _ H) as (A & B & C & D & E). pose proof H as [_ K]. right. unfold w_set_encryptor.
    destruct (w_enc w1), (w_enc w2); destruct K as [K Kc]; cbn [opt_rel] in K; try contradiction; (split; [reflexivity|]); cbn [snd]; [exact H|].
    split; [unfold seen_writer; cbn; congruence|split; [exact X|cbn; lia]].
  Qed.
  Lemma sim_w_set_iv iv : sim QW RW (w_set_iv iv) (w_set_iv iv).
  Proof.
    intros w1 w2 H. pose proof (RW_out _ _ H) as (A & B & C & D & E). pose proof H as [_ K]. right. unfold w_set_iv. rewrite D.
    destruct (w_iv w2); (split; [reflexivity|]); cbn [snd]; [exact H|].
    split; [unfold seen_writer; cbn; congruence|exact K].
  Qed.
  Lemma sim_fragments t fs : sim QW RW (write_fragments Debug t fs) (write_fragments Release t fs).
  Proof.
    induction fs as [|f fs IH]; cbn [write_fragments]; [apply sim_ret|].
    apply sim_bind; [apply sim_lift|intros r]. apply sim_bind; [apply Hwr|intros _; exact IH].
  Qed.
  Lemma sim_data t d : sim QW RW (write_data Debug t d) (write_data Release t d).
  Proof. apply sim_fragments. Qed.
  Lemma sim_whandshake h : sim QW RW (write_handshake Debug h) (write_handshake Release h).
  Proof. apply sim_bind; [apply sim_lift|intros d; apply sim_data]. Qed.
  Lemma sim_walert a : sim QW RW (write_alert Debug a) (write_alert Release a).
  Proof. apply sim_bind; [apply sim_lift|intros d; apply sim_data]. Qed.
  Lemma sim_wccs : sim QW RW (write_change_cipher_spec Debug) (write_change_cipher_spec Release).
  Proof. apply sim_data. Qed.
  Lemma sim_wapp d : sim QW RW (write_application_data Debug d) (write_application_data Release d).
  Proof.
    intros w1 w2 H. unfold write_application_data. pose proof H as [_ K].
    destruct (w_enc w1), (w_enc w2); destruct K as [K Kc]; cbn [opt_rel] in K; try contradiction; [apply (sim_data ApplicationDataTy d w1 w2 H)|].
    right. split; [reflexivity|exact H].
  Qed.
  Lemma sim_run_op o : sim QW RW (run_op Debug o) (run_op Release o).
  Proof.
    destruct o; cbn [run_op]; [|apply sim_data|apply sim_whandshake|apply sim_walert|apply sim_wccs|apply sim_wapp|apply sim_set_encryptor, EW_refl|apply sim_w_set_iv].
    apply sim_bind; [apply sim_lift|intros r; apply Hwr].
  Qed.

  Lemma sim_r_read n : sim QR RR (r_read n) (r_read n).
  Proof.
    intros r1 r2 H. pose proof (RR_out _ _ H) as (A & B & C & D). destruct H as [_ K]. right. unfold r_read. rewrite A.
    destruct (fill_exact (r_src r2) n). split; [reflexivity|]. split; [unfold seen_reader; cbn; congruence|exact K].
  Qed.
  Lemma sim_set_decryptor d1 d2 : ER d1 d2 -> sim QR RR (r_set_decryptor d1) (r_set_decryptor d2).
  Proof.
    intros X r1 r2 H. pose proof (RR_out _ _ H) as (A & B & C & D). pose proof H as [_ K]. right. unfold r_set_decryptor.
    destruct (r_dec r1), (r_dec r2); destruct K as [K Kc]; cbn [opt_rel] in K; try contradiction; (split; [reflexivity|]); cbn [snd]; [exact H|].
    split; [unfold seen_reader; cbn; congruence|split; [exact X|cbn; lia]].
  Qed.
  Lemma sim_r_set_iv iv : sim QR RR (r_set_iv iv) (r_set_iv iv).
  Proof.
    intros r1 r2 H. pose proof (RR_out _ _ H) as (A & B & C & D). pose proof H as [_ K]. right. unfold r_set_iv. rewrite D.
    destruct (r_iv r2); (split; [reflexivity|]); cbn [snd]; [exact H|].
    split; [unfold seen_reader; cbn; congruence|exact K].
  Qed.
  Lemma sim_get_message : sim QR RR r_get_message r_get_message.
  Proof.
    intros r1 r2 H. pose proof (RR_out _ _ H) as (A & B & C & D). destruct H as [_ K]. right. unfold r_get_message. rewrite C.
    destruct (get_message (r_buf r2)). split; [reflexivity|]. split; [unfold seen_reader; cbn; congruence|exact K].
  Qed.
  Lemma sim_add_record f : sim QR RR (r_add_record f) (r_add_record f).
  Proof.
    intros r1 r2 H. pose proof (RR_out _ _ H) as (A & B & C & D). destruct H as [_ K]. right. unfold r_add_record. rewrite C.
    split; [reflexivity|]. split; [unfold seen_reader; cbn; congruence|exact K].
  Qed.
  Lemma sim_handle rec : sim QR RR (handle_record rec) (handle_record rec).
  Proof.
    unfold handle_record. destruct (rc_type rec).
    - destruct (rc_fragment rec) as [|b [|]]; try apply sim_fail. destruct (_ =? _); [apply sim_ret|apply sim_fail].
    - destruct (rc_fragment rec) as [|l [|d]]; try apply sim_fail. destruct (from_code alert_level_code alert_level_all (b2z l)); [|apply sim_fail].
      destruct (from_code alert_desc_code alert_desc_all (b2z d)); [apply sim_ret|apply sim_fail].
    - destruct (rc_fragment rec); [apply sim_fail|]. apply sim_bind; [apply sim_add_record|intros _]. apply sim_bind; [apply sim_get_message|intros o; apply sim_ret].
    - apply sim_ret.
  Qed.
  Lemma sim_loop f : sim QR RR (read_message_loop Debug f) (read_message_loop Release f).
  Proof.
    induction f as [|f IH]; cbn [read_message_loop]; [apply sim_fail|]. apply sim_bind; [exact Hrr|intros rec].
    apply sim_bind; [apply sim_handle|intros o]. destruct o; [apply sim_ret|exact IH].
  Qed.
  Lemma sim_read_message : sim QR RR (read_message Debug) (read_message Release).
  Proof.
    intros r1 r2 H. unfold read_message. pose proof (RR_out _ _ H) as (A & _). rewrite A. revert r1 r2 H A.
    assert (L : forall n, sim QR RR (do* o := r_get_message in match o with Some h => mret (HandshakeMessage h) | None => read_message_loop Debug n end)
      (do* o := r_get_message in match o with Some h => mret (HandshakeMessage h) | None => read_message_loop Release n end)).
    { intros n. apply sim_bind; [apply sim_get_message|intros o]. destruct o; [apply sim_ret|apply sim_loop]. }
    intros r1 r2 H _. apply (L _ r1 r2 H).
  Qed.
  Lemma sim_rapp : sim QR RR (read_application_data Debug) (read_application_data Release).
  Proof.
    intros r1 r2 H. unfold read_application_data. pose proof H as [_ K].
    destruct (r_dec r1), (r_dec r2); destruct K as [K Kc]; cbn [opt_rel] in K; try contradiction; [|right; split; [reflexivity|exact H]].
    clear K Kc.
    assert (L : sim QR RR (do* msg := read_message Debug in match msg with ApplicationDataMessage d => mret d | AlertMessage (Alert _ AD_close_notify) => mret []
        | AlertMessage _ | ChangeCipherSpecMessage | HandshakeMessage _ => mfail Panic end)
      (do* msg := read_message Release in match msg with ApplicationDataMessage d => mret d | AlertMessage (Alert _ AD_close_notify) => mret []
        | AlertMessage _ | ChangeCipherSpecMessage | HandshakeMessage _ => mfail Panic end)).
    { apply sim_bind; [apply sim_read_message|intros msg]. destruct msg as [| |[l a]|]; try apply sim_fail; try apply sim_ret.
      destruct a; first [apply sim_ret|apply sim_fail]. }
    apply (L r1 r2 H).
  Qed.
  Lemma sim_rhandshake : sim QR RR (read_handshake Debug) (read_handshake Release).
  Proof. apply sim_bind; [apply sim_read_message|intros msg]. destruct msg; first [apply sim_ret|apply sim_fail]. Qed.
  Lemma sim_rccs : sim QR RR (read_change_cipher_spec Debug) (read_change_cipher_spec Release).
  Proof. apply sim_bind; [apply sim_read_message|intros msg]. destruct msg; first [apply sim_ret|apply sim_fail]. Qed.
  Lemma sim_do_rop o : sim QR RR (do_rop Debug o) (do_rop Release o).
  Proof.
    destruct o; cbn [do_rop]; apply sim_fmap; [apply sim_read_message|apply sim_rapp|apply sim_rhandshake|apply sim_rccs|apply sim_set_decryptor, ER_refl|apply sim_r_set_iv].
  Qed.

  Lemma sim_on_writer {A} (a b : M writer A) : sim QW RW a b -> sim QC RC (on_writer a) (on_writer b).
  Proof.
    intros H c1 c2 (E1 & E2 & E3 & E4). unfold on_writer. specialize (H _ _ E2).
    destruct (a (c_writer c1)) as [x w1], (b (c_writer c2)) as [y w2]. cbn [fst snd] in *.
    destruct H as [[-> X]|[-> X]]; [left; split; [reflexivity|destruct X as [->|X]; [left; reflexivity|right; left; exact X]]|right; split; [reflexivity|]].
    split; [exact E1|split; [exact X|split; [exact E3|exact E4]]].
  Qed.
  Lemma sim_on_reader {A} (a b : M reader A) : sim QR RR a b -> sim QC RC (on_reader a) (on_reader b).
  Proof.
    intros H c1 c2 (E1 & E2 & E3 & E4). unfold on_reader. specialize (H _ _ E1).
    destruct (a (c_reader c1)) as [x w1], (b (c_reader c2)) as [y w2]. cbn [fst snd] in *.
    destruct H as [[-> X]|[-> X]]; [left; split; [reflexivity|destruct X as [->|X]; [left; reflexivity|right; right; exact X]]|right; split; [reflexivity|]].
    split; [exact X|split; [exact E2|split; [exact E3|exact E4]]].
  Qed.
  Lemma sim_on_rng {A} (a : M rng A) : sim QC RC (on_rng a) (on_rng a).
  Proof.
    intros c1 c2 (E1 & E2 & E3 & E4). unfold on_rng. rewrite E3. destruct (a (c_rng c2)) as [x g]. right. split; [reflexivity|].
    split; [exact E1|split; [exact E2|split; [reflexivity|exact E4]]].
  Qed.
  Lemma sim_alert k : sim QC RC (send_tls_alert Debug k) (send_tls_alert Release k).
  Proof.
    assert (G : sim QC RC (fun c => match on_writer (write_alert Debug (Alert AL_fatal (alert_from_err k))) c with
        | (Ok _, c') => (Ok k, c') | (Err k', c') => (Ok k', c') | (Panic, c') => (Panic, c') | (Diverge, c') => (Diverge, c') end)
      (fun c => match on_writer (write_alert Release (Alert AL_fatal (alert_from_err k))) c with
        | (Ok _, c') => (Ok k, c') | (Err k', c') => (Ok k', c') | (Panic, c') => (Panic, c') | (Diverge, c') => (Diverge, c') end)).
    { intros c1 c2 E. pose proof (sim_on_writer _ _ (sim_walert (Alert AL_fatal (alert_from_err k))) c1 c2 E) as H.
      destruct (on_writer (write_alert Debug _) c1) as [x d1], (on_writer (write_alert Release _) c2) as [y d2]. cbn [fst snd] in H.
      destruct H as [[-> X]|[-> X]]; [left; split; [reflexivity|destruct X as [->|X]; [left; reflexivity|right; exact X]]|]. destruct y; right; (split; [reflexivity|exact X]). }
    unfold send_tls_alert. destruct k; first [exact G|apply sim_ret].
  Qed.
  Lemma sim_or_alert {A} (a b : M client A) : sim QC RC a b -> sim QC RC (or_alert Debug a) (or_alert Release b).
  Proof.
    intros H c1 c2 E. unfold or_alert. specialize (H _ _ E). destruct (a c1) as [x d1], (b c2) as [y d2]. cbn [fst snd] in H.
    destruct H as [[-> X]|[-> X]]; [left; split; [reflexivity|destruct X as [->|X]; [left; reflexivity|right; exact X]]|]. destruct y; try (right; split; [reflexivity|exact X]).
    pose proof (sim_alert k d1 d2 X) as K. destruct (send_tls_alert Debug k d1) as [x e1], (send_tls_alert Release k d2) as [y e2]. cbn [fst snd] in K.
    destruct K as [[-> Y]|[-> Y]]; [left; split; [reflexivity|destruct Y as [->|Y]; [left; reflexivity|right; exact Y]]|]. destruct y; right; (split; [reflexivity|exact Y]).
  Qed.
  Lemma sim_cwrite_all buf : sim QC RC (client_write_all Debug buf) (client_write_all Release buf).
  Proof. apply sim_or_alert, sim_on_writer, sim_wapp. Qed.
  Lemma sim_cwrite buf : sim QC RC (client_write Debug buf) (client_write Release buf).
  Proof. apply sim_bind; [apply sim_cwrite_all|intros _; apply sim_ret]. Qed.
  Lemma sim_close : sim QC RC (client_close Debug) (client_close Release).
  Proof. apply sim_on_writer, sim_walert. Qed.
  Lemma sim_read_loop f : forall len done, sim QC RC (client_read_loop Debug f len done) (client_read_loop Release f len done).
  Proof.
    induction f as [|f IH]; intros len done; cbn [client_read_loop]; destruct (_ <? _)%nat; try apply sim_ret; [apply sim_fail|].
    intros c1 c2 E. pose proof E as (E1 & E2 & E3 & E4). rewrite E4. destruct (c_buf c2) as [|b0 bs] eqn:EB.
    - pose proof (sim_on_reader _ _ sim_rapp c1 c2 E) as H.
      destruct (on_reader (read_application_data Debug) c1) as [x d1], (on_reader (read_application_data Release) c2) as [y d2]. cbn [fst snd] in H.
      destruct H as [[-> X]|[-> X]]; [left; split; [reflexivity|destruct X as [->|X]; [left; reflexivity|right; exact X]]|]. destruct y; try (right; split; [reflexivity|exact X]).
      destruct X as (X1 & X2 & X3 & X4). cbn [c_buf c_reader c_writer c_rng]. rewrite X4.
      apply IH. split; [exact X1|split; [exact X2|split; [exact X3|reflexivity]]].
    - apply IH. split; [exact E1|split; [exact E2|split; [exact E3|reflexivity]]].
  Qed.
  Lemma sim_cread n : sim QC RC (client_read Debug n) (client_read Release n).
  Proof.
    intros c1 c2 E. unfold client_read. pose proof E as (E1 & _). destruct (RR_out _ _ E1) as (A & _). rewrite A.
    apply (sim_read_loop _ n [] c1 c2 E).
  Qed.
  Lemma sim_api o : sim QC RC (do_api Debug o) (do_api Release o).
  Proof.
    destruct o; cbn [do_api].
    - apply sim_fmap, sim_cread.
    - apply sim_fmap, sim_cwrite.
    - apply sim_fmap, sim_cwrite_all.
    - apply sim_fmap, sim_ret.
    - apply sim_fmap, sim_close.
    - apply sim_fmap, sim_alert.
    - apply sim_fmap, sim_on_writer, sim_run_op.
    - apply sim_fmap, sim_on_writer, Hwr.
    - apply sim_on_reader, sim_do_rop.
    - apply sim_fmap, sim_on_writer, sim_write_all.
    - apply sim_fmap, sim_on_reader, sim_r_read.
    - apply sim_fmap, sim_on_rng.
  Qed.
  (** a history: the same answers, or the same up to a panic of the first that the second has too or that is excused *)
  Lemma sim_history l : forall c1 c2, RC c1 c2 ->
    (fst (api_run Debug l c1) = fst (api_run Release l c2) /\ RC (snd (api_run Debug l c1)) (snd (api_run Release l c2))) \/
    (exists xs ys, fst (api_run Debug l c1) = xs ++ [Panic] /\ fst (api_run Release l c2) = xs ++ ys /\ (ys = [Panic] \/ QC (snd (api_run Debug l c1)))).
  Proof.
    induction l as [|o l IH]; intros c1 c2 E; cbn [api_run]; [left; split; [reflexivity|exact E]|].
    pose proof (sim_api o c1 c2 E) as H. destruct (do_api Debug o c1) as [x d1], (do_api Release o c2) as [y d2]. cbn [fst snd] in H.
    destruct H as [[-> X]|[-> X]].
    - right. exists [], (fst (match y with Panic => ([Panic], d2) | Diverge => ([Diverge], d2) | _ => let (xs, c'') := api_run Release l d2 in (y :: xs, c'') end)).
      split; [reflexivity|]. split; [destruct y; reflexivity|]. destruct X as [->|X]; [left; reflexivity|right; exact X].
    - assert (G : (fst (let (xs, c'') := api_run Debug l d1 in (y :: xs, c'')) = fst (let (xs, c'') := api_run Release l d2 in (y :: xs, c'')) /\
          RC (snd (let (xs, c'') := api_run Debug l d1 in (y :: xs, c''))) (snd (let (xs, c'') := api_run Release l d2 in (y :: xs, c'')))) \/
        (exists xs ys, fst (let (xs, c'') := api_run Debug l d1 in (y :: xs, c'')) = xs ++ [Panic] /\ fst (let (xs, c'') := api_run Release l d2 in (y :: xs, c'')) = xs ++ ys /\
          (ys = [Panic] \/ QC (snd (let (xs, c'') := api_run Debug l d1 in (y :: xs, c'')))))).
      { specialize (IH d1 d2 X). destruct (api_run Debug l d1) as [xs e1], (api_run Release l d2) as [ys e2]. cbn [fst snd] in *.
        destruct IH as [[-> Y]|(us & vs & -> & -> & Y)]; [left; split; [reflexivity|exact Y]|right; exists (y :: us), vs; split; [reflexivity|split; [reflexivity|exact Y]]]. }
      destruct y; try exact G; left; (split; [reflexivity|exact X]).
  Qed.
End Layers.
