(** Conversations (C78): the client cannot tell how its input is cut, and cannot act on what has not arrived. *)
From Verif Require Import Spec_Talk P_Util P_Codec P_RecordW P_RecordR P_Record P_Record2 P_Halt P_Client P_Client2 P_App P_App2 P_App3.
From Coq Require Import ZifyBool ZifyNat ZifyN.
Local Open Scope list_scope.
#[local] Opaque aead_seal aead_decrypt aead_encrypt compute_keys SHA256 HMAC PRF.

(** ** Sources: the bytes [b], then [t] *)
Definition like (b : bytes) (t s : src) : Prop := exists a, clean a /\ stream a = b /\ s = a ++ t.
Lemma like_nil t : like [] t t.
Proof. exists []. split; [constructor|]. auto. Qed.
Lemma like_app b x t s : like b (t ++ x) s -> exists a, clean a /\ stream a = b /\ s = a ++ t ++ x.
Proof. exact (fun H => H). Qed.
Lemma fill_like t : forall n b s, like b t s -> (n <= length b)%nat ->
  exists s', fill_exact s n = (Ok (firstn n b), s') /\ like (skipn n b) t s'.
Proof.
  intros n b s (a & C & E & ->). revert n b E. induction C as [|e a (x & xs & ->) C IH]; intros n b E L.
  - cbn in E. subst b. cbn in L. assert (n = 0)%nat by lia. subst n. exists t. split; [destruct t; reflexivity|apply like_nil].
  - cbn [stream] in E. destruct n as [|n].
    + exists ((RData (x :: xs) :: a) ++ t). split; [reflexivity|]. cbn [skipn]. exists (RData (x :: xs) :: a).
      split; [constructor; eauto|]. split; [exact E|reflexivity].
    + cbn [app fill_exact]. destruct (Nat.leb_spec (length (x :: xs)) (Datatypes.S n)) as [Q|Q].
      * destruct (IH (Datatypes.S n - length (x :: xs))%nat (stream a) eq_refl) as (s' & F & K).
        { subst b. cbn [length] in *. rewrite app_length in L. lia. }
        rewrite F. exists s'. split.
        -- subst b. change (x :: xs ++ stream a) with ((x :: xs) ++ stream a). rewrite firstn_app. rewrite (firstn_all2 (x :: xs)) by exact Q. reflexivity.
        -- subst b. change (x :: xs ++ stream a) with ((x :: xs) ++ stream a). rewrite skipn_app. rewrite (skipn_all2 (x :: xs)) by exact Q. exact K.
      * exists (RData (skipn (Datatypes.S n) (x :: xs)) :: a ++ t). split.
        -- subst b. change (x :: xs ++ stream a) with ((x :: xs) ++ stream a). rewrite firstn_app. replace (Datatypes.S n - length (x :: xs))%nat with 0%nat by lia.
           rewrite firstn_O, app_nil_r. reflexivity.
        -- exists (RData (skipn (Datatypes.S n) (x :: xs)) :: a). cbn [skipn]. cbn [length] in Q.
           destruct (skipn n xs) as [|y ys] eqn:Y.
           { exfalso. apply (f_equal (@length byte)) in Y. rewrite skipn_length in Y. cbn in Y. lia. }
           split; [constructor; eauto|]. split; [|reflexivity]. cbn [stream]. subst b. change (x :: xs ++ stream a) with ((x :: xs) ++ stream a). rewrite skipn_app.
           cbn [skipn length]. rewrite Y. cbn [Nat.sub]. replace (n - length xs)%nat with 0%nat by lia. reflexivity.
Qed.
(** where a read ends for want of bytes: an error or an empty read, which is consumed, or the end *)
Definition halts_at (t t' : src) : Prop := t = RErr :: t' \/ t = RData [] :: t' \/ (t = [] /\ t' = []).
Lemma fill_wait t t' : halts_at t t' -> forall n b s, like b t s -> (length b < n)%nat -> fill_exact s n = (Err IoFailure, t').
Proof.
  intros H n b s (a & C & E & ->). revert n b E. induction C as [|e a (x & xs & ->) C IH]; intros n b E L.
  - destruct n; [lia|]. destruct H as [-> |[-> |(-> & ->)]]; reflexivity.
  - cbn [stream] in E. destruct n as [|n]; [lia|]. cbn [app fill_exact].
    assert (Lb : length b = (length (x :: xs) + length (stream a))%nat) by (subst b; cbn [length]; rewrite app_length; lia).
    destruct (Nat.leb_spec (length (x :: xs)) (Datatypes.S n)) as [Q|Q]; [|lia].
    rewrite (IH _ (stream a) eq_refl) by lia. reflexivity.
Qed.
Lemma like_nonempty b t s : like b t s -> t <> [] -> s <> [].
Proof. intros (a & _ & _ & ->) N Q. apply app_eq_nil in Q as [_ Q]. contradiction. Qed.
Lemma like_canon b t : exists s, like b t s.
Proof.
  destruct b as [|x b]; [exists t; apply like_nil|]. exists ([RData (x :: b)] ++ t). exists [RData (x :: b)].
  split; [repeat constructor; eauto|]. split; [cbn; rewrite app_nil_r; reflexivity|reflexivity].
Qed.
Lemma like_more b x t s : like (b ++ x) t s -> exists s', like b ([RData x] ++ t) s' \/ x = [].
Proof. intros _. destruct (like_canon b ([RData x] ++ t)) as (s' & H). eauto. Qed.

(** ** Reader actions: done with what has arrived, whatever follows; or waiting *)
Definition src_of (r : reader) (s : src) : reader := set_src r s.
Lemma src_src r s s' : set_src (set_src r s) s' = set_src r s'. Proof. destruct r; reflexivity. Qed.
Definition r_done {A} (act : M reader A) (r : reader) (b : bytes) (x : res A) (r' : reader) (b' : bytes) : Prop :=
  (exists p, b = p ++ b') /\ forall t s, like b t s -> exists s', act (set_src r s) = (x, set_src r' s') /\ like b' t s'.
Definition r_wait {A} (act : M reader A) (r : reader) (b : bytes) : Prop :=
  exists r', forall t t' s, halts_at t t' -> like b t s -> act (set_src r s) = (Err IoFailure, set_src r' t').
Definition r_causal {A} (act : M reader A) (r : reader) (b : bytes) : Prop :=
  (exists x r' b', r_done act r b x r' b') \/ r_wait act r b.
Lemma rc_const {A} (x : res A) r b : r_done (fun r => (x, r)) r b x r b.
Proof. split; [exists []; reflexivity|]. intros t s H. exists s. auto. Qed.
Lemma rc_ret {A} (a : A) r b : r_causal (mret a) r b.
Proof. left. exists (Ok a), r, b. apply rc_const. Qed.
Lemma rc_fail {A} (x : res A) r b : r_causal (mfail x) r b.
Proof. left. exists x, r, b. apply rc_const. Qed.
Lemma rc_pure {A} (f : reader -> res A * reader) r b x r' :
  (forall s, f (set_src r s) = (x, set_src r' s)) -> r_causal f r b.
Proof. intros H. left. exists x, r', b. split; [exists []; reflexivity|]. intros t s L. exists s. auto. Qed.
Lemma rc_bind {A B} (x : M reader A) (f : A -> M reader B) r b : r_causal x r b ->
  (forall a r' b', r_done x r b (Ok a) r' b' -> r_causal (f a) r' b') -> r_causal (mbind x f) r b.
Proof.
  intros [(y & r1 & b1 & D)|(r1 & W)] K.
  - destruct y as [a|k| |].
    + destruct (K a r1 b1 D) as [(z & r2 & b2 & (p2 & E2) & D2)|(r2 & W2)].
      * left. exists z, r2, b2. destruct D as ((p & E) & D). split; [exists (p ++ p2); rewrite E, E2, app_assoc; reflexivity|].
        intros t s L. unfold mbind. destruct (D t s L) as (s1 & -> & L1). exact (D2 t s1 L1).
      * right. exists r2. intros t t' s Ht L. unfold mbind. destruct D as (_ & D). destruct (D _ s L) as (s1 & -> & L1). exact (W2 t t' s1 Ht L1).
    + left. exists (Err k), r1, b1. destruct D as (E & D). split; [exact E|]. intros t s L. unfold mbind. destruct (D t s L) as (s1 & -> & L1). eauto.
    + left. exists Panic, r1, b1. destruct D as (E & D). split; [exact E|]. intros t s L. unfold mbind. destruct (D t s L) as (s1 & -> & L1). eauto.
    + left. exists Diverge, r1, b1. destruct D as (E & D). split; [exact E|]. intros t s L. unfold mbind. destruct (D t s L) as (s1 & -> & L1). eauto.
  - right. exists r1. intros t t' s Ht L. unfold mbind. rewrite (W t t' s Ht L). reflexivity.
Qed.
Lemma rc_ext {A} (f f' : M reader A) r b : (forall r, f r = f' r) -> r_causal f' r b -> r_causal f r b.
Proof.
  intros E [(y & r1 & b1 & P & D)|(r1 & W)].
  - left. exists y, r1, b1. split; [exact P|]. intros t s L. rewrite E. exact (D t s L).
  - right. exists r1. intros t t' s Ht L. rewrite E. exact (W t t' s Ht L).
Qed.
Lemma rc_read n r b : r_causal (r_read n) r b.
Proof.
  destruct (Nat.leb_spec n (length b)) as [L|L].
  - left. exists (Ok (firstn n b)), r, (skipn n b). split; [exists (firstn n b); symmetry; apply firstn_skipn|].
    intros t s K. destruct (fill_like t n b s K L) as (s' & F & K'). exists s'. split; [|exact K'].
    unfold r_read. cbn [set_src r_src]. rewrite F. reflexivity.
  - right. exists r. intros t t' s Ht K. unfold r_read. cbn [set_src r_src]. rewrite (fill_wait t t' Ht n b s K L). reflexivity.
Qed.
Lemma rc_bump m r b : r_causal (r_bump m) r b.
Proof.
  destruct (ck m 64 (r_count r + 1)) as [c|k| |] eqn:E.
  - apply rc_pure with (x := Ok tt) (r' := set_count r c). intros s. unfold r_bump. cbn [set_src r_count]. rewrite E. reflexivity.
  - apply rc_pure with (x := Err k) (r' := r). intros s. unfold r_bump. cbn [set_src r_count]. rewrite E. reflexivity.
  - apply rc_pure with (x := Panic) (r' := r). intros s. unfold r_bump. cbn [set_src r_count]. rewrite E. reflexivity.
  - apply rc_pure with (x := Diverge) (r' := r). intros s. unfold r_bump. cbn [set_src r_count]. rewrite E. reflexivity.
Qed.
Lemma rc_record m r b : r_causal (read_record m) r b.
Proof.
  unfold read_record. apply rc_bind; [apply rc_read|]. intros ty r1 b1 _.
  destruct (from_code _ _ _) as [t|]; [|apply rc_fail].
  apply rc_bind; [apply rc_read|]. intros maj r2 b2 _. apply rc_bind; [apply rc_read|]. intros min r3 b3 _.
  apply rc_bind; [apply rc_read|]. intros len r4 b4 _. destruct (ENC_RECORD_MAX_LEN <? be_val len)%Z; [apply rc_fail|].
  apply rc_bind; [apply rc_read|]. intros f r5 b5 _.
  apply rc_bind; [apply rc_pure with (x := unprotect t (hd x00 maj) (hd x00 min) f r5) (r' := r5); intros s; reflexivity|]. intros rec r6 b6 _.
  apply rc_bind; [apply rc_bump|]. intros u r7 b7 _. apply rc_ret.
Qed.
Lemma rc_handle rec r b : r_causal (handle_record rec) r b.
Proof.
  unfold handle_record. destruct (rc_type rec).
  - destruct (rc_fragment rec) as [|x [|]]; try destruct (b2z x =? 1)%Z; try apply rc_fail; apply rc_ret.
  - destruct (rc_fragment rec) as [|l [|d ?]]; try apply rc_fail.
    destruct (from_code alert_level_code alert_level_all (b2z l)), (from_code alert_desc_code alert_desc_all (b2z d));
      try apply rc_fail; apply rc_ret.
  - destruct (rc_fragment rec) as [|x f]; [apply rc_fail|].
    apply rc_bind; [|intros u r1 b1 _; apply rc_bind; [|intros o r2 b2 _; apply rc_ret]].
    + apply rc_pure with (x := Ok tt) (r' := set_buf r (add_record (r_buf r) (x :: f))). intros s. reflexivity.
    + destruct (get_message (r_buf r1)) as [y bb] eqn:G. apply rc_pure with (x := y) (r' := set_buf r1 bb).
      intros s. unfold r_get_message. cbn [set_src r_buf]. rewrite G. reflexivity.
  - apply rc_ret.
Qed.
Lemma like_bytes b s : like b [] s -> all_bytes s = b.
Proof.
  intros (a & C & E & ->). rewrite app_nil_r. subst b. induction C as [|e a (x & xs & ->) C IH]; [reflexivity|].
  unfold all_bytes in *. cbn [map concat stream app]. rewrite IH. reflexivity.
Qed.
Lemma record_shorter m r b rec r' b' : r_done (read_record m) r b (Ok rec) r' b' -> (length b' < length b)%nat.
Proof.
  intros (_ & D). destruct (like_canon b []) as (s & L). destruct (D [] s L) as (s' & E & L').
  apply read_record_inv in E as (t & maj & min & frag & f & c & _ & _ & _ & A & _). cbn [set_src r_src] in A.
  rewrite (like_bytes _ _ L), (like_bytes _ _ L') in A. rewrite A, app_length. unfold wire. rewrite !app_length. cbn [length]. lia.
Qed.
Lemma rc_pull m : forall n r b, (length b < n)%nat -> r_causal (pull m) r b.
Proof.
  induction n as [|n IH]; intros r b L; [lia|]. eapply rc_ext; [intros; apply pull_eq|].
  apply rc_bind; [apply rc_record|]. intros rec r1 b1 D. apply record_shorter in D.
  apply rc_bind; [apply rc_handle|]. intros o r2 b2 ((q & Q) & _).
  assert (length b2 <= length b1)%nat by (rewrite Q, app_length; lia).
  destruct o; [apply rc_ret|]. apply IH. lia.
Qed.
Lemma rc_message m r b : r_causal (read_message m) r b.
Proof.
  apply rc_ext with (f' := mbind r_get_message (fun o => match o with Some h => mret (HandshakeMessage h) | None => pull m end)).
  { intros q. rewrite read_message_eq. unfold mbind, r_get_message. destruct (get_message (r_buf q)) as [[[h|]| | |] bb]; reflexivity. }
  apply rc_bind.
  - destruct (get_message (r_buf r)) as [y bb] eqn:G. apply rc_pure with (x := y) (r' := set_buf r bb).
    intros s. unfold r_get_message. cbn [set_src r_buf]. rewrite G. reflexivity.
  - intros o r1 b1 _. destruct o; [apply rc_ret|]. apply (rc_pull m (S (length b1))). lia.
Qed.
Lemma rc_handshake m r b : r_causal (read_handshake m) r b.
Proof. apply rc_bind; [apply rc_message|]. intros [h| |a|d] r1 b1 _; try apply rc_fail; apply rc_ret. Qed.
Lemma rc_ccs m r b : r_causal (read_change_cipher_spec m) r b.
Proof. apply rc_bind; [apply rc_message|]. intros [h| |a|d] r1 b1 _; try apply rc_fail; apply rc_ret. Qed.
Lemma rc_app m r b : r_causal (read_application_data m) r b.
Proof.
  destruct (r_dec r) as [d|] eqn:D.
  - assert (K : r_causal (mbind (read_message m) (fun msg => match msg with
       | ApplicationDataMessage d => mret d
       | AlertMessage (Alert _ AD_close_notify) => mret []
       | AlertMessage _ | ChangeCipherSpecMessage | HandshakeMessage _ => mfail Panic end)) r b).
    { apply rc_bind; [apply rc_message|]. intros [h| |[lv ds]|d'] r1 b1 _; try apply rc_fail; try apply rc_ret. destruct ds; try apply rc_fail; apply rc_ret. }
    destruct K as [(y & r1 & b1 & P & K)|(r1 & W)].
    + left. exists y, r1, b1. split; [exact P|]. intros t s L. unfold read_application_data. cbn [set_src r_dec]. rewrite D. exact (K t s L).
    + right. exists r1. intros t t' s Ht L. unfold read_application_data. cbn [set_src r_dec]. rewrite D. exact (W t t' s Ht L).
  - apply rc_pure with (x := Panic) (r' := r). intros s. unfold read_application_data. cbn [set_src r_dec]. rewrite D. reflexivity.
Qed.

(** ** Output only grows *)
Definition w_grows {A} (act : M writer A) : Prop := forall w, exists u, w_out (snd (act w)) = w_out w ++ u.
Lemma wg_ret {A} (x : res A) : w_grows (fun w => (x, w)).
Proof. intros w. exists []. cbn. rewrite app_nil_r. reflexivity. Qed.
Lemma wg_bind {A B} (x : M writer A) (f : A -> M writer B) : w_grows x -> (forall a, w_grows (f a)) -> w_grows (mbind x f).
Proof.
  intros X F w. unfold mbind. destruct (X w) as (u & E). destruct (x w) as [y w1]. cbn [snd] in E.
  destruct y as [a|k| |]; eauto. destruct (F a w1) as (u2 & E2). exists (u ++ u2). rewrite E2, E, app_assoc. reflexivity.
Qed.
Lemma wg_write_all bs : w_grows (write_all bs).
Proof.
  intros w. unfold write_all. destruct bs as [|b bs]; [exists []; rewrite app_nil_r; reflexivity|].
  destruct (w_plan w) as [|[|k] p]; cbn [snd w_out]; eauto.
Qed.
Lemma wg_record m r : w_grows (write_record m r).
Proof.
  unfold write_record. apply wg_bind.
  { intros w. exists []. rewrite app_nil_r. unfold protect. destruct (w_enc w) as [e|]; [|reflexivity]. cbv zeta.
    destruct (e _ _ _); reflexivity. }
  intros frag. destruct (ENC_RECORD_MAX_LEN <? zlen frag)%Z; [apply wg_ret|].
  repeat (apply wg_bind; [apply wg_write_all|intros _]).
  intros w. exists []. rewrite app_nil_r. unfold w_bump. destruct (ck m 64 _); reflexivity.
Qed.
Lemma wg_fragments m t fs : w_grows (write_fragments m t fs).
Proof.
  induction fs as [|f fs IH]; [apply wg_ret|]. cbn [write_fragments]. apply wg_bind; [apply wg_ret|]. intros r.
  apply wg_bind; [apply wg_record|]. intros _. exact IH.
Qed.
Lemma wg_handshake m h : w_grows (write_handshake m h).
Proof. apply wg_bind; [apply wg_ret|]. intros d. apply wg_fragments. Qed.
Lemma wg_alert m a : w_grows (write_alert m a).
Proof. apply wg_bind; [apply wg_ret|]. intros d. apply wg_fragments. Qed.
Lemma wg_ccs m : w_grows (write_change_cipher_spec m).
Proof. apply wg_fragments. Qed.
Lemma wg_app m d : w_grows (write_application_data m d).
Proof. intros w. unfold write_application_data. destruct (w_enc w); [apply wg_fragments|apply wg_ret]. Qed.
Lemma wg_set_enc e : w_grows (w_set_encryptor e).
Proof. intros w. exists []. rewrite app_nil_r. unfold w_set_encryptor. destruct (w_enc w); reflexivity. Qed.
Lemma wg_set_iv v : w_grows (w_set_iv v).
Proof. intros w. exists []. rewrite app_nil_r. unfold w_set_iv. destruct (w_iv w); reflexivity. Qed.

Definition c_out (c : client) : bytes := w_out (c_writer c).
Definition grows {A} (act : M client A) : Prop := forall c, exists u, c_out (snd (act c)) = c_out c ++ u.
Lemma g_const {A} (x : res A) : grows (fun c => (x, c)).
Proof. intros c. exists []. rewrite app_nil_r. reflexivity. Qed.
Lemma g_bind {A B} (x : M client A) (f : A -> M client B) : grows x -> (forall a, grows (f a)) -> grows (mbind x f).
Proof.
  intros X F c. unfold mbind. destruct (X c) as (u & E). destruct (x c) as [y c1]. cbn [snd] in E.
  destruct y as [a|k| |]; eauto. destruct (F a c1) as (u2 & E2). exists (u ++ u2). rewrite E2, E, app_assoc. reflexivity.
Qed.
Lemma g_reader {A} (a : M reader A) : grows (on_reader a).
Proof. intros c. exists []. rewrite app_nil_r. unfold on_reader. destruct (a (c_reader c)). reflexivity. Qed.
Lemma g_rng {A} (a : M rng A) : grows (on_rng a).
Proof. intros c. exists []. rewrite app_nil_r. unfold on_rng. destruct (a (c_rng c)). reflexivity. Qed.
Lemma g_writer {A} (a : M writer A) : w_grows a -> grows (on_writer a).
Proof. intros H c. destruct (H (c_writer c)) as (u & E). exists u. unfold on_writer, c_out in *. destruct (a (c_writer c)). exact E. Qed.
Lemma g_expect {A} m (pick : handshake -> option A) : grows (expect m pick).
Proof. apply g_bind; [apply g_reader|]. intros h. destruct (pick h); apply g_const. Qed.

(** ** The same for the client *)
Definition csrc (c : client) (s : src) : client := Client (set_src (c_reader c) s) (c_writer c) (c_rng c) (c_buf c).
Definition c_done {A} (act : client -> A * client) (c : client) (b : bytes) (x : A) (c' : client) (b' : bytes) : Prop :=
  (exists p, b = p ++ b') /\ forall t s, like b t s -> exists s', act (csrc c s) = (x, csrc c' s') /\ like b' t s'.
Definition c_wait {A} (act : client -> A * client) (c : client) (b : bytes) (x : A) (c' : client) : Prop :=
  r_src (c_reader c') = [] /\ (forall t t' s, halts_at t t' -> like b t s -> act (csrc c s) = (x, csrc c' t')) /\
  forall t s, like b t s -> exists u, c_out (snd (act (csrc c s))) = c_out c' ++ u.
Lemma csrc_nil c : r_src (c_reader c) = [] -> csrc c [] = c.
Proof. destruct c as [[] w g b]. cbn. intros ->. reflexivity. Qed.
Lemma waited {A} {act : client -> A * client} {c b x c'} : r_src (c_reader c') = [] ->
  (forall t t' s, halts_at t t' -> like b t s -> act (csrc c s) = (x, csrc c' t')) -> forall s, like b [RErr] s -> act (csrc c s) = (x, c').
Proof. intros N W s L. rewrite (W [RErr] [] s (or_introl eq_refl) L), (csrc_nil _ N). reflexivity. Qed.
Definition c_causal {A} (act : M client A) (c : client) (b : bytes) : Prop :=
  (exists x c' b', c_done act c b x c' b') \/ exists c', c_wait act c b (Err IoFailure) c'.
Lemma cc_pure {A} (act : M client A) c b x c' : (forall s, act (csrc c s) = (x, csrc c' s)) -> c_causal act c b.
Proof. intros H. left. exists x, c', b. split; [exists []; reflexivity|]. intros t s L. exists s. auto. Qed.
Lemma cc_bind {A B} (x : M client A) (f : A -> M client B) c b : c_causal x c b -> (forall a c b, c_causal (f a) c b) ->
  (forall a, grows (f a)) -> c_causal (mbind x f) c b.
Proof.
  intros [(y & c1 & b1 & (p & E) & D)|(c1 & N & W & O)] K G.
  - destruct y as [a|k| |].
    + destruct (K a c1 b1) as [(z & c2 & b2 & (p2 & E2) & D2)|(c2 & N2 & W2 & O2)].
      * left. exists z, c2, b2. split; [exists (p ++ p2); rewrite E, E2, app_assoc; reflexivity|].
        intros t s L. unfold mbind. destruct (D t s L) as (s1 & -> & L1). exact (D2 t s1 L1).
      * right. exists c2. split; [exact N2|]. split.
        -- intros t t' s Ht L. unfold mbind. destruct (D _ s L) as (s1 & -> & L1). exact (W2 t t' s1 Ht L1).
        -- intros t s L. unfold mbind. destruct (D _ s L) as (s1 & -> & L1). exact (O2 t s1 L1).
    + left. exists (Err k), c1, b1. split; [eauto|]. intros t s L. unfold mbind. destruct (D t s L) as (s1 & -> & L1). eauto.
    + left. exists Panic, c1, b1. split; [eauto|]. intros t s L. unfold mbind. destruct (D t s L) as (s1 & -> & L1). eauto.
    + left. exists Diverge, c1, b1. split; [eauto|]. intros t s L. unfold mbind. destruct (D t s L) as (s1 & -> & L1). eauto.
  - right. exists c1. split; [exact N|]. split.
    + intros t t' s Ht L. unfold mbind. rewrite (W t t' s Ht L). reflexivity.
    + intros t s L. destruct (O t s L) as (u & Eu). unfold mbind. destruct (x (csrc c s)) as [y c2]. cbn [snd] in Eu.
      destruct y as [a|k| |]; eauto. destruct (G a c2) as (u2 & E2). exists (u ++ u2). rewrite E2, Eu, app_assoc. reflexivity.
Qed.
Lemma cc_reader {A} (a : M reader A) c b : r_causal a (c_reader c) b -> c_causal (on_reader a) c b.
Proof.
  intros [(y & r1 & b1 & P & D)|(r1 & W)].
  - left. exists y, (Client r1 (c_writer c) (c_rng c) (c_buf c)), b1. split; [exact P|]. intros t s L.
    destruct (D t s L) as (s1 & E & L1). exists s1. unfold on_reader. cbn [csrc c_reader]. rewrite E. auto.
  - right. exists (Client (set_src r1 []) (c_writer c) (c_rng c) (c_buf c)). split; [reflexivity|]. split.
    + intros t t' s Ht L. unfold on_reader. cbn [csrc c_reader]. rewrite (W t t' s Ht L). reflexivity.
    + intros t s L. exists []. rewrite app_nil_r. unfold on_reader. destruct (a _). reflexivity.
Qed.
Lemma cc_writer {A} (a : M writer A) c b : c_causal (on_writer a) c b.
Proof.
  destruct (a (c_writer c)) as [x w] eqn:E. apply cc_pure with (x := x) (c' := Client (c_reader c) w (c_rng c) (c_buf c)).
  intros s. unfold on_writer. cbn [csrc c_writer]. rewrite E. reflexivity.
Qed.
Lemma cc_rng {A} (a : M rng A) c b : c_causal (on_rng a) c b.
Proof.
  destruct (a (c_rng c)) as [x w] eqn:E. apply cc_pure with (x := x) (c' := Client (c_reader c) (c_writer c) w (c_buf c)).
  intros s. unfold on_rng. cbn [csrc c_rng]. rewrite E. reflexivity.
Qed.
Lemma cc_const {A} (x : res A) c b : c_causal (fun c => (x, c)) c b.
Proof. apply cc_pure with (x := x) (c' := c). reflexivity. Qed.
Lemma cc_expect {A} m (pick : handshake -> option A) c b : c_causal (expect m pick) c b.
Proof.
  apply cc_bind; [apply cc_reader, rc_handshake| |]; intros h; [intros c1 b1|]; destruct (pick h); try apply cc_const; apply g_const.
Qed.
Lemma rc_set_iv iv r b : r_causal (r_set_iv iv) r b.
Proof.
  destruct (r_iv r) as [v|] eqn:E; [apply rc_pure with (x := Panic) (r' := r)|
    apply rc_pure with (x := Ok tt) (r' := Reader (r_src r) (r_dec r) (r_count r) (r_buf r) (Some iv))];
    intros s; unfold r_set_iv; cbn [set_src r_iv]; rewrite E; reflexivity.
Qed.
Lemma rc_set_dec d r b : r_causal (r_set_decryptor d) r b.
Proof.
  destruct (r_dec r) as [v|] eqn:E; [apply rc_pure with (x := Panic) (r' := r)|
    apply rc_pure with (x := Ok tt) (r' := Reader (r_src r) (Some d) 0 (r_buf r) (r_iv r))];
    intros s; unfold r_set_decryptor; cbn [set_src r_dec]; rewrite E; reflexivity.
Qed.
Definition good {A} (act : M client A) : Prop := grows act /\ forall c b, c_causal act c b.
Lemma good_bind {A B} (x : M client A) (f : A -> M client B) : good x -> (forall a, good (f a)) -> good (mbind x f).
Proof.
  intros (X1 & X2) F. split; [apply g_bind; [exact X1|intros a; apply F]|]. intros c b.
  apply cc_bind; [apply X2|intros a; apply F|intros a; apply F].
Qed.
Lemma good_const {A} (x : res A) : good (fun c => (x, c)).
Proof. split; [apply g_const|intros; apply cc_const]. Qed.
Lemma good_writer {A} (a : M writer A) : w_grows a -> good (on_writer a).
Proof. intros H. split; [apply g_writer, H|intros; apply cc_writer]. Qed.
Lemma good_rng {A} (a : M rng A) : good (on_rng a).
Proof. split; [apply g_rng|intros; apply cc_rng]. Qed.
Lemma good_reader {A} (a : M reader A) : (forall r b, r_causal a r b) -> good (on_reader a).
Proof. intros H. split; [apply g_reader|intros; apply cc_reader, H]. Qed.
Lemma good_expect {A} m (pick : handshake -> option A) : good (expect m pick).
Proof. split; [apply g_expect|intros; apply cc_expect]. Qed.
Lemma good_handshake m : good (client_handshake m).
Proof.
  unfold client_handshake.
  repeat first [ apply good_bind; [first [apply good_const
                   |apply good_writer; first [apply wg_handshake|apply wg_ccs|apply wg_set_enc|apply wg_set_iv]
                   |apply good_rng|apply good_expect
                   |apply good_reader; intros; first [apply rc_set_iv|apply rc_set_dec|apply rc_ccs]]|]
               | lazymatch goal with |- forall _ : (_ * _)%type, _ => intros [? ?] | |- forall _, _ => intros ? end; cbv beta iota ].
  match goal with |- good (if ?b then _ else _) => destruct b end; apply good_const.
Qed.
Lemma g_send m k : grows (send_tls_alert m k).
Proof.
  assert (D : k = IoFailure \/ k <> IoFailure) by (destruct k; auto; right; discriminate).
  destruct D as [-> | D]; [apply g_const|]. intros c. rewrite send_alert_eq by exact D.
  destruct (g_writer _ (wg_alert m (Alert AL_fatal (alert_from_err k))) c) as (u & E). exists u.
  destruct (on_writer _ c) as [[]]; exact E.
Qed.
Lemma send_pure m k c : exists x c', forall s, send_tls_alert m k (csrc c s) = (x, csrc c' s).
Proof.
  assert (D : k = IoFailure \/ k <> IoFailure) by (destruct k; auto; right; discriminate).
  destruct D as [-> | D]; [exists (Ok IoFailure), c; reflexivity|].
  destruct (write_alert m (Alert AL_fatal (alert_from_err k)) (c_writer c)) as [x w] eqn:E.
  exists (match x with Ok _ => Ok k | Err k' => Ok k' | Panic => Panic | Diverge => Diverge end), (Client (c_reader c) w (c_rng c) (c_buf c)).
  intros s. rewrite send_alert_eq by exact D. unfold on_writer. cbn [csrc c_writer]. rewrite E. destruct x; reflexivity.
Qed.
Lemma good_or_alert {A} m (a : M client A) : good a -> good (or_alert m a).
Proof.
  intros (G & C). split.
  - intros c. unfold or_alert. destruct (G c) as (u & E). destruct (a c) as [y c1]. cbn [snd] in E. destruct y as [x|k| |]; eauto.
    destruct (g_send m k c1) as (u2 & E2). exists (u ++ u2). rewrite E in E2. rewrite app_assoc, <- E2. destruct (send_tls_alert m k c1) as [[]]; reflexivity.
  - intros c b. destruct (C c b) as [(y & c1 & b1 & P & D)|(c1 & N & W & O)].
    + left. destruct y as [x|k| |].
      * exists (Ok x), c1, b1. split; [exact P|]. intros t s L. unfold or_alert. destruct (D t s L) as (s1 & -> & L1). eauto.
      * destruct (send_pure m k c1) as (x & c2 & E). exists (match x with Ok k' => Err k' | Err k' => Err k' | Panic => Panic | Diverge => Diverge end), c2, b1.
        split; [exact P|]. intros t s L. unfold or_alert. destruct (D t s L) as (s1 & -> & L1). rewrite E. exists s1. destruct x; auto.
      * exists Panic, c1, b1. split; [exact P|]. intros t s L. unfold or_alert. destruct (D t s L) as (s1 & -> & L1). eauto.
      * exists Diverge, c1, b1. split; [exact P|]. intros t s L. unfold or_alert. destruct (D t s L) as (s1 & -> & L1). eauto.
    + right. exists c1. split; [exact N|]. split.
      * intros t t' s Ht L. unfold or_alert. rewrite (W t t' s Ht L). reflexivity.
      * intros t s L. destruct (O t s L) as (u & E). unfold or_alert. destruct (a (csrc c s)) as [y c2]. cbn [snd] in E. destruct y as [x|k| |]; eauto.
        destruct (g_send m k c2) as (u2 & E2). exists (u ++ u2). rewrite E in E2. rewrite app_assoc, <- E2. destruct (send_tls_alert m k c2) as [[]]; reflexivity.
Qed.
Lemma new_causal m p g b : c_causal (or_alert m (client_handshake m)) (client_init [] p g) b.
Proof. apply (good_or_alert m _ (good_handshake m)). Qed.
Lemma init_src s p g : client_init s p g = csrc (client_init [] p g) s.
Proof. reflexivity. Qed.
