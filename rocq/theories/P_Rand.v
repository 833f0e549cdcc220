(** Proofs about src/client.rs and src/cipher/ecdhe.rs: which random bytes are used, and for what. *)
From Verif Require Import Spec_Client2 P_Util P_Limbs P_P256conv P_P256X P_Ecdhe P_Client P_Client2 P_App P_App2 P_Codec.
From Coq Require Import ZifyBool ZifyNat ZifyN.
Local Open Scope list_scope.
Local Open Scope Z_scope.
#[local] Opaque SHA256 HMAC aead_seal aead_decrypt aead_encrypt compute_keys PRF nmul.

Lemma draw_prefix a b c k : (32 * S k <= length a)%nat -> draw (a ++ b) k = draw (a ++ c) k.
Proof.
  intros L. unfold draw. rewrite !skipn_app, !firstn_app. replace (32 - length (skipn (32 * k) a))%nat with 0%nat by (rewrite skipn_length; lia).
  rewrite !firstn_O. reflexivity.
Qed.
Lemma accepted_prefix a b c k : length a = (32 * S k)%nat -> first_accepted (a ++ b) k -> first_accepted (a ++ c) k.
Proof.
  intros L (H1 & H2 & H3). split; [rewrite app_length; lia|]. split; [rewrite (draw_prefix a c b) by lia; exact H2|].
  intros j Hj. rewrite (draw_prefix a c b) by lia. apply H3. exact Hj.
Qed.
Lemma keys_tape m data g x g' : compute_keys m data g = (x, g') -> fine x ->
  exists used, g = used ++ g' /\ (forall g2, compute_keys m data (used ++ g2) = (x, g2)) /\
    match x with Ok _ => exists j, first_accepted g j /\ length used = (32 * S j)%nat | _ => used = [] end.
Proof.
  intros E F. pose proof (compute_keys_cases m data g) as C. rewrite E in C. destruct x as [[pub pms]|e| |]; try destruct F.
  - destruct C as (_ & _ & k & rest & N & R & D). rewrite (compute_keys_run m data g k rest N R D) in E.
    destruct (get_random_x m g) as [[x|e| |] h] eqn:G; try discriminate E. destruct (random_inv m g x h G) as (j & A & -> & Hx & V).
    destruct (dh_public m x) as [PA| | |] eqn:DA; try discriminate E. destruct (dh_shared m N x) as [PB| | |] eqn:DB; try discriminate E.
    apply pair_equal_spec in E as [E <-]. assert (Lu : length (firstn (32 * S j) g) = (32 * S j)%nat) by (rewrite firstn_length; destruct A; lia).
    exists (firstn (32 * S j) g). split; [symmetry; apply firstn_skipn|]. split; [|exists j; auto]. intros g2.
    rewrite (compute_keys_run m data _ k rest N R D).
    pose proof A as A'. rewrite <- (firstn_skipn (32 * S j) g) in A'. apply (accepted_prefix _ _ g2 j Lu) in A'.
    destruct (random_first m _ j A') as (x' & G' & Hx' & V'). rewrite G'.
    assert (x' = x) as ->.
    { apply int256_inj; [exact Hx'|exact Hx|]. rewrite V', V. rewrite (draw_prefix _ g2 (skipn (32 * S j) g)) by lia. rewrite firstn_skipn. reflexivity. }
    rewrite DA, DB. f_equal; [exact E|]. rewrite skipn_app, Lu, Nat.sub_diag, skipn_all2 by lia. reflexivity.
  - destruct C as [-> C]. exists []. split; [reflexivity|]. split; [|reflexivity]. intros g2. cbn [app].
    assert (Ea : forall k rest N, tls_read i_ske data = Ok (k, rest) -> from_uncompressed_bytes m (ske_public k) <> Ok (Some N)).
    { intros k rest N H H'. destruct C as [C|(_ & k0 & r0 & C & C')]; [congruence|]. rewrite H in C. apply Ok_inj in C. injection C as <- <-. congruence. }
    rewrite (compute_keys_early m data g2 Ea). rewrite (compute_keys_early m data g Ea) in E. apply pair_equal_spec in E as [E _]. rewrite E. reflexivity.
Qed.

(** ** The client *)
Definition tape {A} (a : M client A) : Prop := forall c x c', a c = (x, c') -> fine x ->
  exists used, c_rng c = used ++ c_rng c' /\ forall g2, a (set_rng c (used ++ g2)) = (x, set_rng c' g2).
Lemma tape_bind {A B} (a : M client A) (f : A -> M client B) : tape a -> (forall y, tape (f y)) -> tape (mbind a f).
Proof.
  intros Ha Hf c x c' E Fx. unfold mbind in E. destruct (a c) as [[y|k| |] c1] eqn:Ea; try (solve [apply pair_equal_spec in E as [<- _]; destruct Fx]).
  - destruct (Ha _ _ _ Ea I) as (u1 & E1 & H1). destruct (Hf y _ _ _ E Fx) as (u2 & E2 & H2).
    exists (u1 ++ u2). split; [rewrite E1, E2, app_assoc; reflexivity|]. intros g2. unfold mbind. rewrite <- app_assoc, H1. apply H2.
  - apply pair_equal_spec in E as [<- <-]. destruct (Ha _ _ _ Ea I) as (u1 & E1 & H1). exists u1. split; [exact E1|]. intros g2. unfold mbind. rewrite H1. reflexivity.
Qed.
(** operations that leave the tape alone *)
Lemma tape_still {A} (a : M client A) : (forall c x c', a c = (x, c') -> c_rng c' = c_rng c /\ forall g2, a (set_rng c g2) = (x, set_rng c' g2)) -> tape a.
Proof. intros H c x c' E _. destruct (H _ _ _ E) as [H1 H2]. exists []. split; [cbn; congruence|]. exact H2. Qed.
Lemma still_lift {A} (r : res A) : tape (mlift r).
Proof. apply tape_still. intros c x c' E. unfold mlift in *. apply pair_equal_spec in E as [<- <-]. auto. Qed.
Lemma still_reader {A} (a : M reader A) : tape (on_reader a).
Proof.
  apply tape_still. intros c x c' E. unfold on_reader in *. cbn [set_rng c_reader c_writer c_rng c_buf]. destruct (a (c_reader c)) as [y r].
  apply pair_equal_spec in E as [<- <-]. auto.
Qed.
Lemma still_writer {A} (a : M writer A) : tape (on_writer a).
Proof.
  apply tape_still. intros c x c' E. unfold on_writer in *. cbn [set_rng c_reader c_writer c_rng c_buf]. destruct (a (c_writer c)) as [y r].
  apply pair_equal_spec in E as [<- <-]. auto.
Qed.
Lemma tape_ret {A} (a : A) : tape (mret a). Proof. exact (still_lift (Ok a)). Qed.
Lemma tape_fail {A} (r : res A) : tape (mfail r). Proof. exact (still_lift r). Qed.
Lemma tape_rng {A} (a : M rng A) :
  (forall g x g', a g = (x, g') -> fine x -> exists used, g = used ++ g' /\ forall g2, a (used ++ g2) = (x, g2)) -> tape (on_rng a).
Proof.
  intros H c x c' E F. unfold on_rng in *. cbn [set_rng c_reader c_writer c_rng c_buf]. destruct (a (c_rng c)) as [y g] eqn:Ea.
  apply pair_equal_spec in E as [<- <-]. destruct (H _ _ _ Ea F) as (u & E1 & E2). exists u. split; [exact E1|]. intros g2. rewrite E2. reflexivity.
Qed.
Lemma fill_tape n g x g' : rng_fill n g = (x, g') -> fine x -> exists used, g = used ++ g' /\ forall g2, rng_fill n (used ++ g2) = (x, g2).
Proof.
  unfold rng_fill. destruct (Nat.ltb_spec (length g) n) as [L|L]; intros E F; apply pair_equal_spec in E as [<- <-]; [destruct F|].
  exists (firstn n g). split; [symmetry; apply firstn_skipn|]. intros g2. assert (Ln : length (firstn n g) = n) by (rewrite firstn_length; lia).
  destruct (Nat.ltb_spec (length (firstn n g ++ g2)) n) as [L2|L2]; [rewrite app_length in L2; lia|].
  rewrite firstn_app, skipn_app, Ln, Nat.sub_diag, firstn_O, app_nil_r, firstn_firstn, Nat.min_id.
  rewrite <- Ln at 2. rewrite skipn_all2 by lia. reflexivity.
Qed.
Lemma tape_expect {A} m (pick : handshake -> option A) : tape (expect m pick).
Proof. apply tape_bind; [apply still_reader|]. intros h. destruct (pick h); [apply tape_ret|apply tape_fail]. Qed.
Lemma keys_frame m data g x g' : compute_keys m data g = (x, g') -> fine x -> exists used, g = used ++ g' /\ forall g2, compute_keys m data (used ++ g2) = (x, g2).
Proof. intros E F. destruct (keys_tape _ _ _ _ _ E F) as (u & H1 & H2 & _). eauto. Qed.
Lemma tape_handshake m : tape (client_handshake m).
Proof.
  unfold client_handshake.
  repeat (apply tape_bind; [first [apply tape_rng, fill_tape|apply tape_rng, keys_frame
      |apply still_lift|apply still_writer|apply still_reader|apply tape_expect]|];
    let y := fresh in intros y; try (match type of y with prod _ _ => destruct y as [? ?] end)).
  match goal with |- tape (if ?b then _ else _) => destruct b; [apply tape_ret|apply tape_fail] end.
Qed.
Lemma tape_alert m k : tape (send_tls_alert m k).
Proof.
  unfold send_tls_alert. destruct k; try apply tape_ret; (apply tape_still; intros c x c' E; unfold on_writer in *; cbn [set_rng c_reader c_writer c_rng c_buf];
    destruct (write_alert m _ (c_writer c)) as [[]  w]; apply pair_equal_spec in E as [<- <-]; auto).
Qed.
Lemma tape_or_alert {A} m (a : M client A) : tape a -> tape (or_alert m a).
Proof.
  intros H c x c' E F. unfold or_alert in E. destruct (a c) as [[y|k| |] c1] eqn:Ea; try (solve [apply pair_equal_spec in E as [<- _]; destruct F]).
  - apply pair_equal_spec in E as [<- <-]. destruct (H _ _ _ Ea I) as (u & E1 & E2). exists u. split; [exact E1|]. intros g2. unfold or_alert. rewrite E2. reflexivity.
  - destruct (H _ _ _ Ea I) as (u & E1 & E2). destruct (send_tls_alert m k c1) as [z c2] eqn:Es.
    assert (Fz : fine z) by (destruct z; try exact I; apply pair_equal_spec in E as [<- _]; destruct F).
    destruct (tape_alert m k _ _ _ Es Fz) as (u2 & E3 & E4). exists (u ++ u2). split.
    + destruct z; apply pair_equal_spec in E as [_ <-]; rewrite E1, E3, app_assoc; reflexivity.
    + intros g2. unfold or_alert. rewrite <- app_assoc, E2, E4. destruct z; apply pair_equal_spec in E as [<- <-]; reflexivity || (destruct Fz).
Qed.
(** only the bytes used matter *)
Theorem new_tape m s p g x c : client_new m s p g = (x, c) -> fine x ->
  exists used, g = used ++ c_rng c /\ forall g2, client_new m s p (used ++ g2) = (x, set_rng c g2).
Proof. exact (tape_or_alert m _ (tape_handshake m) (client_init s p g) x c). Qed.

(** ** How much a completed handshake uses *)
Lemma bind_ok {A B} (a : M client A) (f : A -> M client B) c x c' : mbind a f c = (Ok x, c') -> exists y c1, a c = (Ok y, c1) /\ f y c1 = (Ok x, c').
Proof. unfold mbind. destruct (a c) as [[y| | |] c1]; try discriminate. eauto. Qed.
Definition quiet {A} (a : M client A) : Prop := forall c x c', a c = (x, c') -> c_rng c' = c_rng c.
Lemma quiet_bind {A B} (a : M client A) (f : A -> M client B) : quiet a -> (forall y, quiet (f y)) -> quiet (mbind a f).
Proof.
  intros Ha Hf c x c' E. unfold mbind in E. destruct (a c) as [y c1] eqn:Ea. pose proof (Ha _ _ _ Ea) as H.
  destruct y as [y| | |]; try (apply pair_equal_spec in E as [_ <-]; exact H). rewrite (Hf y _ _ _ E). exact H.
Qed.
Lemma quiet_lift {A} (r : res A) : quiet (mlift r).
Proof. intros c x c' E. unfold mlift in E. apply pair_equal_spec in E as [_ <-]. reflexivity. Qed.
Lemma quiet_ret {A} (a : A) : quiet (mret a). Proof. exact (quiet_lift (Ok a)). Qed.
Lemma quiet_fail {A} (r : res A) : quiet (mfail r). Proof. exact (quiet_lift r). Qed.
Lemma quiet_reader {A} (a : M reader A) : quiet (on_reader a).
Proof. intros c x c' E. unfold on_reader in E. destruct (a _) as [y r]. apply pair_equal_spec in E as [_ <-]. reflexivity. Qed.
Lemma quiet_writer {A} (a : M writer A) : quiet (on_writer a).
Proof. intros c x c' E. unfold on_writer in E. destruct (a _) as [y r]. apply pair_equal_spec in E as [_ <-]. reflexivity. Qed.
Lemma quiet_expect {A} m (pick : handshake -> option A) : quiet (expect m pick).
Proof. apply quiet_bind; [apply quiet_reader|]. intros h. destruct (pick h); [apply quiet_ret|apply quiet_fail]. Qed.
Ltac quiet_step := first [apply quiet_lift|apply quiet_writer|apply quiet_reader|apply quiet_expect].
Lemma handshake_tape m c c' : client_handshake m c = (Ok tt, c') ->
  (32 <= length (c_rng c))%nat /\ exists j, first_accepted (skipn 32 (c_rng c)) j /\ c_rng c' = skipn (32 + 32 * S j) (c_rng c).
Proof.
  unfold client_handshake. intros E. apply bind_ok in E as (cr & c1 & E1 & E).
  apply bind_ok in E as (rn & c2 & E2 & E). apply bind_ok in E as (ch & c3 & E3 & E). apply bind_ok in E as ([] & c4 & E4 & E).
  apply bind_ok in E as (sh & c5 & E5 & E). apply bind_ok in E as ([] & c6 & E6 & E). apply bind_ok in E as (certs & c7 & E7 & E).
  apply bind_ok in E as (skx & c8 & E8 & E). apply bind_ok in E as ([kd pms] & c9 & E9 & E). cbv iota beta in E.
  apply quiet_lift in E2, E3, E6. apply quiet_writer in E4. apply quiet_expect in E5, E7, E8.
  match type of E with ?a c9 = _ => assert (Q : quiet a) end.
  { repeat (apply quiet_bind; [quiet_step|]; let y := fresh in intros y; try (match type of y with prod _ _ => destruct y as [? ?] end)).
    match goal with |- quiet (if ?b then _ else _) => destruct b; [apply quiet_ret|apply quiet_fail] end. }
  apply Q in E. clear Q.
  assert (Eq : c_rng c8 = skipn 32 (c_rng c) /\ (32 <= length (c_rng c))%nat).
  { unfold on_rng, rng_fill in E1. destruct (Nat.ltb_spec (length (c_rng c)) 32); [discriminate E1|]. apply pair_equal_spec in E1 as [_ <-].
    cbn [c_rng] in *. split; [congruence|assumption]. }
  destruct Eq as [Eq L]. split; [exact L|].
  unfold on_rng in E9. rewrite Eq in E9. destruct (compute_keys m skx (skipn 32 (c_rng c))) as [y g9] eqn:K. apply pair_equal_spec in E9 as [-> <-]. cbn [c_rng] in E.
  destruct (keys_tape _ _ _ _ _ K I) as (u & U1 & _ & (j & F & U2)). exists j. split; [exact F|].
  rewrite E. assert (g9 = skipn (length u) (u ++ g9)) as -> by (rewrite skipn_app, skipn_all2, Nat.sub_diag by lia; reflexivity).
  rewrite <- U1, U2, skipn_skipn. f_equal. lia.
Qed.
Theorem new_uses m s p g c : client_new m s p g = (Ok tt, c) ->
  (32 <= length g)%nat /\ exists j, first_accepted (skipn 32 g) j /\ c_rng c = skipn (32 + 32 * S j) g.
Proof.
  intros E. unfold client_new, or_alert in E. destruct (client_handshake m (client_init s p g)) as [[[]|k| |] c1] eqn:H; try discriminate E.
  - apply pair_equal_spec in E as [_ <-]. exact (handshake_tape _ _ _ H).
  - destruct (send_tls_alert m k c1) as [[]]; discriminate E.
Qed.
(** reading, writing and closing use none *)
Lemma rd_quiet m len done c x c' : rd m len done c x c' -> c_rng c' = c_rng c.
Proof. induction 1; cbn [with_buf c_rng] in *; congruence. Qed.
Theorem calls_quiet m : forall l c as_ c', calls m l c = (as_, c') -> c_rng c' = c_rng c.
Proof.
  induction l as [|o l IH]; intros c as_ c' E; cbn [calls] in E; [apply pair_equal_spec in E as [_ <-]; reflexivity|].
  destruct (do_call m o c) as [a c1] eqn:D. destruct (calls m l c1) as [r c2] eqn:C. apply pair_equal_spec in E as [_ <-].
  rewrite (IH _ _ _ C). destruct o as [n|buf|]; cbn [do_call] in D.
  - destruct (client_read m n c) as [x c3] eqn:R. apply pair_equal_spec in D as [_ <-]. exact (rd_quiet _ _ _ _ _ _ (read_rd _ _ _ _ _ R)).
  - destruct (client_write m buf c) as [x c3] eqn:R. apply pair_equal_spec in D as [_ <-]. unfold client_write, client_write_all in R.
    refine (quiet_bind (or_alert m (on_writer (write_application_data m buf))) _ _ _ _ _ _ R); [|intros; apply quiet_ret].
    intros d y d' Ed. unfold or_alert in Ed. destruct (on_writer _ d) as [z d1] eqn:Ew. apply quiet_writer in Ew.
    destruct z as [z|k| |]; try (apply pair_equal_spec in Ed as [_ <-]; exact Ew).
    assert (Qa : quiet (send_tls_alert m k)).
    { unfold send_tls_alert. destruct k; try apply quiet_ret; (intros e z e' Ee; destruct (on_writer _ e) as [w e1] eqn:Ex; apply quiet_writer in Ex;
        destruct w; apply pair_equal_spec in Ee as [_ <-]; exact Ex). }
    destruct (send_tls_alert m k d1) as [w d2] eqn:Es. apply Qa in Es. destruct w; apply pair_equal_spec in Ed as [_ <-]; congruence.
  - destruct (client_close m c) as [x c3] eqn:R. apply pair_equal_spec in D as [_ <-]. exact (quiet_writer _ _ _ _ R).
Qed.
