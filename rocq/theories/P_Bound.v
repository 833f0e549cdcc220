(** Proofs about src/client.rs, src/tls.rs and src/handshake.rs: the buffers never outgrow a fixed size. *)
From Verif Require Import Spec_Client2 P_Util P_Codec P_CodecProps P_RecordW P_RecordR P_Record P_Record2 P_Halt P_Client P_App P_Pending.
From Coq Require Import ZifyBool ZifyNat ZifyN.
Local Open Scope list_scope.
Local Open Scope Z_scope.
#[local] Opaque SHA256 HMAC aead_seal aead_decrypt aead_encrypt compute_keys PRF nmul.

Lemma incomplete_bound buf b : get_message buf = (Ok None, b) -> zlen buf <= 2 ^ 24 - 1 + 4 - 1.
Proof.
  destruct (buffer_cases buf) as [H|[(ty & n & body & R & L & ->)|(ty & n & body & rest' & R & L & ->)]].
  - intros _. lia.
  - intros _. rewrite zlen_cons, zlen_app, zlen_be. lia.
  - rewrite get_message_framed by assumption. destruct (hs_read _) as [[]| | |]; discriminate.
Qed.
Lemma get_message_shorter buf x b : get_message buf = (x, b) -> zlen b <= zlen buf.
Proof.
  destruct (buffer_cases buf) as [H|[(ty & n & body & R & L & ->)|(ty & n & body & rest' & R & L & ->)]].
  - rewrite get_message_short by exact H. intros E. apply pair_equal_spec in E as [_ <-]. lia.
  - rewrite get_message_incomplete by assumption. intros E. apply pair_equal_spec in E as [_ <-]. lia.
  - rewrite get_message_framed by assumption. intros E. apply pair_equal_spec in E as [_ <-]. rewrite zlen_app. pose proof (zlen_nonneg (ty :: be 3 n ++ body)). lia.
Qed.
Lemma handle_bound rec r x r' : zlen (r_buf r) <= 2 ^ 24 - 1 + 4 - 1 -> zlen (rc_fragment rec) <= 2 ^ 14 -> handle_record rec r = (x, r') ->
  zlen (r_buf r') <= handshake_limit /\ (x = Ok None -> get_message (r_buf r') = (Ok None, r_buf r')) /\
  (forall d, x = Ok (Some (ApplicationDataMessage d)) -> zlen d <= 2 ^ 14).
Proof.
  intros B F E. split; [|split].
  - unfold handshake_limit. unfold handle_record in E. destruct (rc_type rec); cbv [mret mfail] in E.
    + assert (r' = r) as -> by (destruct (rc_fragment rec) as [|b [|]]; [| |]; try (apply pair_equal_spec in E as [_ <-]; reflexivity); destruct (b2z b =? 1); apply pair_equal_spec in E as [_ <-]; reflexivity). lia.
    + assert (r' = r) as ->. { destruct (rc_fragment rec) as [|l [|d [|]]]; try (apply pair_equal_spec in E as [_ <-]; reflexivity).
        all: destruct (from_code alert_level_code alert_level_all (b2z l)), (from_code alert_desc_code alert_desc_all (b2z d)); apply pair_equal_spec in E as [_ <-]; reflexivity. } lia.
    + destruct (rc_fragment rec) as [|b f] eqn:Fr; [apply pair_equal_spec in E as [_ <-]; lia|].
      unfold mbind, r_add_record, r_get_message in E. cbn [r_buf r_src r_dec r_count r_iv] in E. unfold add_record in E.
      destruct (get_message (r_buf r ++ b :: f)) as [y bb] eqn:G. apply get_message_shorter in G. rewrite zlen_app in G.
      assert (Hb : r_buf r' = bb) by (destruct y as [[h|]| | |]; apply pair_equal_spec in E as [_ <-]; reflexivity). rewrite Hb. lia.
    + apply pair_equal_spec in E as [_ <-]. lia.
  - intros ->. apply handle_none in E as (_ & _ & G). exact G.
  - intros d ->. unfold handle_record in E. destruct (rc_type rec); cbv [mret mfail] in E.
    + destruct (rc_fragment rec) as [|b [|]]; try discriminate. destruct (b2z b =? 1); discriminate.
    + destruct (rc_fragment rec) as [|l [|d' q]]; try discriminate. destruct (from_code alert_level_code alert_level_all (b2z l)), (from_code alert_desc_code alert_desc_all (b2z d')); discriminate.
    + destruct (rc_fragment rec) as [|b f] eqn:Fr; [discriminate|]. unfold mbind, r_add_record, r_get_message in E. cbn [r_buf r_src r_dec r_count r_iv] in E.
      destruct (get_message _) as [[[h|]| | |] bb]; discriminate E.
    + apply pair_equal_spec in E as [E _]. apply Ok_inj in E. injection E as <-. exact F.
Qed.
Lemma pull_bound m x r' : forall r, zlen (r_buf r) <= 2 ^ 24 - 1 + 4 - 1 -> pull m r = (x, r') ->
  zlen (r_buf r') <= handshake_limit /\ (forall d, x = Ok (ApplicationDataMessage d) -> zlen d <= 2 ^ 14).
Proof.
  apply (pull_ind m (fun r => zlen (r_buf r) <= 2 ^ 24 - 1 + 4 - 1 -> pull m r = (x, r') ->
    zlen (r_buf r') <= handshake_limit /\ (forall d, x = Ok (ApplicationDataMessage d) -> zlen d <= 2 ^ 14))).
  intros r IH B E. rewrite pull_eq in E. unfold mbind in E.
  destruct (read_record m r) as [y r1] eqn:R.
  assert (B1 : r_buf r1 = r_buf r).
  { destruct y as [rec| | |].
    - apply read_record_inv in R as (t & maj & min & frag & f & c & _ & _ & _ & _ & _ & _ & _ & Er). rewrite Er. reflexivity.
    - apply read_record_fail in R as (S & _); [rewrite S; reflexivity|discriminate].
    - apply read_record_fail in R as (S & _); [rewrite S; reflexivity|discriminate].
    - apply read_record_fail in R as (S & _); [rewrite S; reflexivity|discriminate]. }
  destruct y as [rec| | |]; try (apply pair_equal_spec in E as [<- <-]; rewrite B1; unfold handshake_limit; split; [lia|discriminate]).
  assert (Fr : zlen (rc_fragment rec) <= 2 ^ 14).
  { apply read_record_inv in R as (t & maj & min & frag & f & c & -> & Lf & _). exact Lf. }
  destruct (handle_record rec r1) as [y r2] eqn:H. destruct (handle_bound _ _ _ _ ltac:(rewrite B1; exact B) Fr H) as (H1 & H2 & H3).
  destruct y as [[msg|]| | |]; try (apply pair_equal_spec in E as [<- <-]; split; [exact H1|discriminate]).
  - cbv [mret] in E. apply pair_equal_spec in E as [<- <-]. split; [exact H1|]. intros d X. apply Ok_inj in X as ->. apply H3. reflexivity.
  - apply (IH rec r1 r2 eq_refl H); [|exact E]. apply incomplete_bound with (1 := H2 eq_refl).
Qed.
Lemma read_message_bound m r x r' : zlen (r_buf r) <= handshake_limit -> read_message m r = (x, r') ->
  zlen (r_buf r') <= handshake_limit /\ (forall d, x = Ok (ApplicationDataMessage d) -> zlen d <= 2 ^ 14).
Proof.
  intros B E. rewrite read_message_eq in E. destruct (get_message (r_buf r)) as [y b] eqn:G. pose proof (get_message_shorter _ _ _ G) as L.
  destruct y as [[h|]| | |]; try (apply pair_equal_spec in E as [<- <-]; cbn [set_buf r_buf]; split; [lia|discriminate]).
  apply pull_bound in E; [exact E|]. cbn [set_buf r_buf]. pose proof (incomplete_bound _ _ G). lia.
Qed.

(** ** The client *)
Definition safe {A} (a : M client A) : Prop := forall c x c', within_limits c -> a c = (x, c') -> within_limits c'.
Lemma safe_bind {A B} (a : M client A) (f : A -> M client B) : safe a -> (forall y, safe (f y)) -> safe (mbind a f).
Proof.
  intros Ha Hf c x c' W E. unfold mbind in E. destruct (a c) as [y c1] eqn:Ea. pose proof (Ha _ _ _ W Ea) as W1.
  destruct y as [y| | |]; try (apply pair_equal_spec in E as [_ <-]; exact W1). exact (Hf y _ _ _ W1 E).
Qed.
Lemma safe_lift {A} (r : res A) : safe (mlift r).
Proof. intros c x c' W E. unfold mlift in E. apply pair_equal_spec in E as [_ <-]. exact W. Qed.
Lemma safe_ret {A} (a : A) : safe (mret a). Proof. intros c x c' W E. apply pair_equal_spec in E as [_ <-]. exact W. Qed.
Lemma safe_fail {A} (r : res A) : safe (mfail r). Proof. intros c x c' W E. unfold mfail in E. apply pair_equal_spec in E as [_ <-]. exact W. Qed.
Lemma safe_writer {A} (a : M writer A) : safe (on_writer a).
Proof. intros c x c' W E. unfold on_writer in E. destruct (a _) as [y w]. apply pair_equal_spec in E as [_ <-]. exact W. Qed.
Lemma safe_rng {A} (a : M (list byte) A) : safe (on_rng a).
Proof. intros c x c' W E. unfold on_rng in E. destruct (a _) as [y w]. apply pair_equal_spec in E as [_ <-]. exact W. Qed.
Lemma safe_reader {A} (a : M reader A) : (forall r x r', zlen (r_buf r) <= handshake_limit -> a r = (x, r') -> zlen (r_buf r') <= handshake_limit) -> safe (on_reader a).
Proof.
  intros H c x c' [W1 W2] E. unfold on_reader in E. destruct (a _) as [y r] eqn:Ea. apply pair_equal_spec in E as [_ <-].
  split; [exact (H _ _ _ W1 Ea)|exact W2].
Qed.
Lemma read_handshake_bound m r x r' : zlen (r_buf r) <= handshake_limit -> read_handshake m r = (x, r') -> zlen (r_buf r') <= handshake_limit.
Proof.
  intros B E. unfold read_handshake, mbind in E. destruct (read_message m r) as [y r1] eqn:R. apply read_message_bound in R as [H _]; [|exact B].
  destruct y as [msg| | |]; [destruct msg|..]; apply pair_equal_spec in E as [_ <-]; exact H.
Qed.
Lemma read_ccs_bound m r x r' : zlen (r_buf r) <= handshake_limit -> read_change_cipher_spec m r = (x, r') -> zlen (r_buf r') <= handshake_limit.
Proof.
  intros B E. unfold read_change_cipher_spec, mbind in E. destruct (read_message m r) as [y r1] eqn:R. apply read_message_bound in R as [H _]; [|exact B].
  destruct y as [msg| | |]; [destruct msg|..]; apply pair_equal_spec in E as [_ <-]; exact H.
Qed.
Lemma read_app_bound m r x r' : zlen (r_buf r) <= handshake_limit -> read_application_data m r = (x, r') ->
  zlen (r_buf r') <= handshake_limit /\ (forall d, x = Ok d -> zlen d <= 2 ^ 14).
Proof.
  intros B E. unfold read_application_data, mbind in E. destruct (r_dec r); [|apply pair_equal_spec in E as [<- <-]; split; [exact B|discriminate]].
  destruct (read_message m r) as [y r1] eqn:R. apply read_message_bound in R as [H D]; [|exact B].
  destruct y as [msg| | |]; [|apply pair_equal_spec in E as [<- <-]; split; [exact H|discriminate]..].
  destruct msg as [h| |[l de]|dat]; [| |destruct de|]; apply pair_equal_spec in E as [<- <-]; (split; [exact H|]); try discriminate; intros d' X; apply Ok_inj in X as <-.
  - cbn. lia.
  - apply D. reflexivity.
Qed.
Lemma safe_expect {A} m (pick : handshake -> option A) : safe (expect m pick).
Proof.
  apply safe_bind; [apply safe_reader, read_handshake_bound|]. intros h. destruct (pick h); [apply safe_ret|apply safe_fail].
Qed.
Lemma set_iv_bound iv r x r' : zlen (r_buf r) <= handshake_limit -> r_set_iv iv r = (x, r') -> zlen (r_buf r') <= handshake_limit.
Proof. intros B E. unfold r_set_iv in E. destruct (r_iv r); apply pair_equal_spec in E as [_ <-]; exact B. Qed.
Lemma set_dec_bound d r x r' : zlen (r_buf r) <= handshake_limit -> r_set_decryptor d r = (x, r') -> zlen (r_buf r') <= handshake_limit.
Proof. intros B E. unfold r_set_decryptor in E. destruct (r_dec r); apply pair_equal_spec in E as [_ <-]; exact B. Qed.
Lemma safe_handshake m : safe (client_handshake m).
Proof.
  unfold client_handshake.
  repeat (apply safe_bind; [first [apply safe_rng|apply safe_lift|apply safe_writer|apply safe_expect|apply safe_reader; first [apply read_ccs_bound|apply set_iv_bound|apply set_dec_bound]]|];
    let y := fresh in intros y; try (match type of y with prod _ _ => destruct y as [? ?] end)).
  match goal with |- safe (if ?b then _ else _) => destruct b; [apply safe_ret|apply safe_fail] end.
Qed.
Lemma safe_or_alert {A} m (a : M client A) : safe a -> safe (or_alert m a).
Proof.
  intros H c x c' W E. unfold or_alert in E. destruct (a c) as [y c1] eqn:Ea. pose proof (H _ _ _ W Ea) as W1.
  destruct y as [y|k| |]; try (apply pair_equal_spec in E as [_ <-]; exact W1).
  assert (X : safe (send_tls_alert m k)).
  { intros d z d' Wd Ed. unfold send_tls_alert in Ed. destruct k; try (apply pair_equal_spec in Ed as [_ <-]; exact Wd);
      (destruct (on_writer _ d) as [u d1] eqn:Eu; pose proof (safe_writer _ _ _ _ Wd Eu); destruct u; apply pair_equal_spec in Ed as [_ <-]; assumption). }
  destruct (send_tls_alert m k c1) as [z c2] eqn:Es. pose proof (X _ _ _ W1 Es). destruct z; apply pair_equal_spec in E as [_ <-]; assumption.
Qed.
Lemma rd_bound m len done c x c' : rd m len done c x c' -> within_limits c -> within_limits c'.
Proof.
  assert (Sk : forall n (l : bytes), zlen (skipn n l) <= zlen l) by (intros; unfold zlen; rewrite skipn_length; lia).
  induction 1 as [done c L|done c x c' L N R IH|done c d r' x c' L N E R IH|done c k r' L N E|done c r' L N E|done c r' L N E]; intros [W1 W2].
  - split; assumption.
  - apply IH. split; [exact W1|]. cbn [with_buf c_buf]. specialize (Sk (len - length done)%nat (c_buf c)). lia.
  - apply read_app_bound in E as [B D]; [|exact W1]. apply IH. split; [exact B|]. cbn [with_buf c_buf].
    specialize (Sk (len - length done)%nat d). specialize (D d eq_refl). lia.
  - apply read_app_bound in E as [B _]; [|exact W1]. split; [exact B|]. cbn [with_buf c_buf]. rewrite zlen_nil. lia.
  - apply read_app_bound in E as [B _]; [|exact W1]. split; [exact B|]. cbn [with_buf c_buf]. rewrite zlen_nil. lia.
  - apply read_app_bound in E as [B _]; [|exact W1]. split; [exact B|]. cbn [with_buf c_buf]. rewrite zlen_nil. lia.
Qed.

Lemma call_bound m o c a c' : do_call m o c = (a, c') -> within_limits c -> within_limits c'.
Proof.
  intros E W. destruct o as [n|buf|]; cbn [do_call] in E.
  - destruct (client_read m n c) as [x c1] eqn:R. apply pair_equal_spec in E as [_ <-]. exact (rd_bound _ _ _ _ _ _ (read_rd _ _ _ _ _ R) W).
  - destruct (client_write m buf c) as [x c1] eqn:R. apply pair_equal_spec in E as [_ <-].
    refine (safe_bind _ _ (safe_or_alert m _ (safe_writer _)) _ _ _ _ W R). intros _. apply safe_ret.
  - destruct (client_close m c) as [x c1] eqn:R. apply pair_equal_spec in E as [_ <-]. exact (safe_writer _ _ _ _ W R).
Qed.
Theorem new_bound m s p g x c : client_new m s p g = (x, c) -> within_limits c.
Proof.
  intros E. refine (safe_or_alert m _ (safe_handshake m) _ _ _ _ E). split; cbn; unfold handshake_limit; lia.
Qed.
Theorem calls_bound m : forall l c as_ c', within_limits c -> calls m l c = (as_, c') -> within_limits c'.
Proof.
  induction l as [|o l IH]; intros c as_ c' W E; cbn [calls] in E; [apply pair_equal_spec in E as [_ <-]; exact W|].
  destruct (do_call m o c) as [a c1] eqn:D. destruct (calls m l c1) as [r c2] eqn:C. apply pair_equal_spec in E as [_ <-].
  exact (IH _ _ _ (call_bound _ _ _ _ _ D W) C).
Qed.
(** the limit is needed: a header announcing the longest message, and what may follow it *)
Theorem limit_incomplete body : zlen body < 2 ^ 24 - 1 -> get_message ([x14; xff; xff; xff] ++ body) = (Ok None, [x14; xff; xff; xff] ++ body).
Proof. intros L. exact (get_message_incomplete x14 (2 ^ 24 - 1) body ltac:(lia) L). Qed.
