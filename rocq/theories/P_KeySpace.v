(** Proofs about src/crypto/p256.rs, src/cipher/ecdhe.rs, src/client.rs: how much of the private value matters. *)
From Verif Require Import Spec_Client2 P_Util P_Limbs P_P256conv P_P256X P_Ecdhe P_Client P_Client2 P_App P_App2 P_Codec P_Client3 P_Client4 P_Rand.
From Coq Require Import ZifyBool ZifyNat ZifyN.
Local Open Scope list_scope.
Local Open Scope Z_scope.
#[local] Opaque SHA256 HMAC aead_seal aead_decrypt aead_encrypt PRF nmul.

(** ** Scalar multiplication *)
Lemma low_bit a b j : (j < 8)%nat -> a mod 256 = b mod 256 -> Z.land (wshr a (Z.of_nat j)) 1 = Z.land (wshr b (Z.of_nat j)) 1.
Proof.
  intros J E. unfold wshr. change 1 with (Z.ones 1). rewrite !Z.land_ones by lia. rewrite !Z.shiftr_div_pow2 by lia.
  assert (X : forall z, z / 2 ^ Z.of_nat j mod 2 ^ 1 = (z mod 256) / 2 ^ Z.of_nat j mod 2 ^ 1).
  { intros z. rewrite <- !Z.land_ones by lia. change 256 with (2 ^ 8). rewrite <- !Z.shiftr_div_pow2, <- Z.land_ones by lia. apply Z.bits_inj'. intros i Hi.
    rewrite !Z.land_spec, !Z.shiftr_spec, Z.land_spec by lia. destruct (Z.ltb_spec i 1) as [L|L].
    - rewrite (Z.ones_spec_low 8) by lia. rewrite andb_true_r. reflexivity.
    - rewrite (Z.ones_spec_high 1 i) by lia. rewrite !andb_false_r. reflexivity. }
  rewrite (X a), (X b), E. reflexivity.
Qed.
Lemma digit x y A B : x mod 256 + 256 * A = y mod 256 + 256 * B -> x mod 256 = y mod 256 /\ A = B.
Proof. pose proof (Z.mod_pos_bound x 256). pose proof (Z.mod_pos_bound y 256). lia. Qed.
Lemma eff_limbs a b : eff_scalar a = eff_scalar b -> forall i, (i < 7)%nat -> nth i a 0 mod 256 = nth i b 0 mod 256.
Proof.
  assert (Ho : forall v, eff_scalar v = nth 0 v 0 mod 256 + 256 * (nth 1 v 0 mod 256 + 256 * (nth 2 v 0 mod 256 + 256 * (nth 3 v 0 mod 256 +
    256 * (nth 4 v 0 mod 256 + 256 * (nth 5 v 0 mod 256 + 256 * (nth 6 v 0 mod 256 + 256 * 0))))))) by (intros v; unfold eff_scalar; ring).
  rewrite !Ho. clear Ho. intros E. apply digit in E as [E0 E]. apply digit in E as [E1 E]. apply digit in E as [E2 E]. apply digit in E as [E3 E].
  apply digit in E as [E4 E]. apply digit in E as [E5 E]. apply digit in E as [E6 E].
  intros i Hi. do 7 (destruct i as [|i]; [assumption|]). lia.
Qed.
Lemma loop_eff m p a b : (forall i, (i < 7)%nat -> nth i a 0 mod 256 = nth i b 0 mod 256) ->
  forall l ret, (forall i j, In (i, j) l -> (i < 7 /\ j < 8)%nat) -> scalar_loop m p a l ret = scalar_loop m p b l ret.
Proof.
  intros H. induction l as [|[i j] l IH]; intros ret Hl; [reflexivity|]. cbn [scalar_loop].
  destruct (Hl i j (or_introl eq_refl)) as [Hi Hj].
  assert (Es : scalar_step m p a ret (i, j) = scalar_step m p b ret (i, j)).
  { unfold scalar_step, at_. rewrite (low_bit (nth i a 0) (nth i b 0) j Hj (H i Hi)). reflexivity. }
  rewrite Es. destruct (scalar_step m p b ret (i, j)); try reflexivity. cbn [rbind]. apply IH. intros i' j' I. apply Hl. right. exact I.
Qed.
Theorem mult_scalar_eff m p a b : eff_scalar a = eff_scalar b -> mult_scalar m p a = mult_scalar m p b.
Proof.
  intros E. unfold mult_scalar. apply loop_eff; [apply eff_limbs; exact E|].
  intros i j I. unfold scalar_ijs in I. apply in_prod_iff in I as [I J]. apply in_rev, in_seq in I. apply in_rev, in_seq in J. lia.
Qed.

(** ** The key exchange *)
Theorem keys_space m data g1 g2 j1 j2 : first_accepted g1 j1 -> first_accepted g2 j2 -> used_scalar (draw g1 j1) = used_scalar (draw g2 j2) ->
  fst (compute_keys m data g1) = fst (compute_keys m data g2).
Proof.
  intros F1 F2 U. destruct (random_first m g1 j1 F1) as (x1 & E1 & H1 & V1). destruct (random_first m g2 j2 F2) as (x2 & E2 & H2 & V2).
  assert (Ef : eff_scalar x1 = eff_scalar x2) by (rewrite !limbs_words, V1, V2 by assumption; exact U).
  unfold compute_keys, mbind, mlift. destruct (tls_read i_ske data) as [[k rest]| | |]; try reflexivity.
  destruct (from_uncompressed_bytes m (ske_public k)) as [[N|]| | |]; try reflexivity. rewrite E1, E2.
  rewrite (mult_scalar_eff m G x1 x2 Ef), (mult_scalar_eff m (to_point N) x1 x2 Ef).
  destruct (mult_scalar m G x2) as [P| | |]; try reflexivity. destruct (normalize m P) as [Q| | |]; try reflexivity.
  destruct (mult_scalar m (to_point N) x2) as [P'| | |]; try reflexivity. destruct (normalize m P') as [Q'| | |]; try reflexivity.
Qed.

(** ** The client *)
#[local] Opaque compute_keys.
(** [a] does the same whatever is left of the tape *)
Definition free {A} (a : M client A) : Prop := forall c t, exists t', a (set_rng c t) = (fst (a c), set_rng (snd (a c)) t').
Definition still {A} (a : M client A) : Prop := forall c t, a (set_rng c t) = (fst (a c), set_rng (snd (a c)) t) /\ c_rng (snd (a c)) = c_rng c.
(** [a] does the same on the tapes [t1] and [t2] *)
Definition twin (t1 t2 : rng) {A} (a : M client A) : Prop :=
  forall c, c_rng c = t1 -> exists t', a (set_rng c t2) = (fst (a c), set_rng (snd (a c)) t').
Lemma still_free {A} (a : M client A) : still a -> free a. Proof. intros H c t. exists t. apply H. Qed.
Lemma free_twin {A} t1 t2 (a : M client A) : free a -> twin t1 t2 a. Proof. intros H c _. apply H. Qed.
Lemma free_bind {A B} (a : M client A) (f : A -> M client B) : free a -> (forall y, free (f y)) -> free (mbind a f).
Proof.
  intros Ha Hf c t. unfold mbind. destruct (Ha c t) as (t1 & E). rewrite E. destruct (a c) as [[y| | |] c1]; cbn [fst snd] in *; eauto. apply Hf.
Qed.
Lemma twin_still {A B} t1 t2 (a : M client A) (f : A -> M client B) : still a -> (forall y, twin t1 t2 (f y)) -> twin t1 t2 (mbind a f).
Proof.
  intros Ha Hf c Ec. unfold mbind. destruct (Ha c t2) as (E & Er). rewrite E. rewrite Ec in Er. destruct (a c) as [[y| | |] c1]; cbn [fst snd] in *; eauto. apply Hf, Er.
Qed.
Lemma twin_bind {A B} t1 t2 (a : M client A) (f : A -> M client B) : twin t1 t2 a -> (forall y, free (f y)) -> twin t1 t2 (mbind a f).
Proof.
  intros Ha Hf c Ec. unfold mbind. destruct (Ha c Ec) as (t' & E). rewrite E. destruct (a c) as [[y| | |] c1]; cbn [fst snd] in *; eauto. apply Hf.
Qed.
Lemma st_lift {A} (r : res A) : still (mlift r). Proof. split; reflexivity. Qed.
Lemma st_reader {A} (a : M reader A) : still (on_reader a).
Proof. intros c t. unfold on_reader. cbn [set_rng c_reader c_writer c_rng c_buf]. destruct (a (c_reader c)); split; reflexivity. Qed.
Lemma st_writer {A} (a : M writer A) : still (on_writer a).
Proof. intros c t. unfold on_writer. cbn [set_rng c_reader c_writer c_rng c_buf]. destruct (a (c_writer c)); split; reflexivity. Qed.
Lemma st_expect {A} m (pick : handshake -> option A) : still (expect m pick).
Proof.
  intros c t. unfold expect, mbind. destruct (st_reader (read_handshake m) c t) as [E Er]. rewrite E. destruct (on_reader _ c) as [[h| | |] c1]; cbn [fst snd] in *; try (split; [reflexivity|exact Er]).
  destruct (pick h); split; reflexivity || exact Er.
Qed.
Ltac st := first [apply st_lift|apply st_reader|apply st_writer|apply st_expect].
Ltac pairs y := try (match type of y with prod _ _ => destruct y as [? ?] end).
Lemma handshake_twin m cr t1 t2 j1 j2 c : length cr = 32%nat -> first_accepted t1 j1 -> first_accepted t2 j2 -> used_scalar (draw t1 j1) = used_scalar (draw t2 j2) ->
  exists t', client_handshake m (set_rng c (cr ++ t2)) = (fst (client_handshake m (set_rng c (cr ++ t1))), set_rng (snd (client_handshake m (set_rng c (cr ++ t1)))) t').
Proof.
  intros L F1 F2 U. 
  assert (X : forall t, rng_fill 32 (cr ++ t) = (Ok cr, t)).
  { intros t. unfold rng_fill. destruct (Nat.ltb_spec (length (cr ++ t)) 32) as [Lt|_]; [rewrite app_length in Lt; lia|].
    rewrite <- L at 1 2. rewrite firstn_app, firstn_all, skipn_app, skipn_all, Nat.sub_diag, firstn_O, app_nil_r. reflexivity. }
  assert (T : forall K : bytes -> M client unit, twin t1 t2 (K cr) -> exists t', mbind (on_rng (rng_fill 32)) K (set_rng c (cr ++ t2)) =
    (fst (mbind (on_rng (rng_fill 32)) K (set_rng c (cr ++ t1))), set_rng (snd (mbind (on_rng (rng_fill 32)) K (set_rng c (cr ++ t1)))) t')).
  { intros K HK. unfold mbind, on_rng. cbn [set_rng c_reader c_writer c_rng c_buf]. rewrite !X. exact (HK (Client (c_reader c) (c_writer c) t1 (c_buf c)) eq_refl). }
  unfold client_handshake. apply T. clear T X.
  do 7 (apply twin_still; [st|]; let y := fresh in intros y; pairs y).
  apply twin_bind.
  { intros c0 E0. unfold on_rng. rewrite E0. cbn [set_rng c_reader c_writer c_rng c_buf].
    match goal with |- context [compute_keys m ?d t1] => pose proof (keys_space m d t1 t2 j1 j2 F1 F2 U) as Q end.
    destruct (compute_keys m _ t1) as [x1 r1], (compute_keys m _ t2) as [x2 r2]. cbn [fst snd] in *. subst x2. exists r2. reflexivity. }
  repeat (let y := fresh in intros y; pairs y; apply free_bind; [apply still_free; st|]).
  let y := fresh in intros y. apply still_free. match goal with |- still (if ?b then _ else _) => destruct b end; apply st_lift.
Qed.
Lemma st_alert m k : still (send_tls_alert m k).
Proof.
  intros c t. assert (K : k = IoFailure \/ k <> IoFailure) by (destruct k; auto; right; discriminate). destruct K as [->|K]; [split; reflexivity|].
  assert (X : forall c0, send_tls_alert m k c0 = match on_writer (write_alert m (Alert AL_fatal (alert_from_err k))) c0 with
    | (Ok _, c') => (Ok k, c') | (Err k', c') => (Ok k', c') | (Panic, c') => (Panic, c') | (Diverge, c') => (Diverge, c') end) by (intros c0; destruct k; congruence || reflexivity).
  rewrite !X. clear X K. (destruct (st_writer (write_alert m (Alert AL_fatal (alert_from_err k))) c t) as [E Er]; rewrite E;
     destruct (on_writer _ c) as [[]  c1]; cbn [fst snd] in *; split; reflexivity || exact Er).
Qed.
Theorem key_space m s p cr t1 t2 j1 j2 : length cr = 32%nat -> first_accepted t1 j1 -> first_accepted t2 j2 -> used_scalar (draw t1 j1) = used_scalar (draw t2 j2) ->
  exists t', client_new m s p (cr ++ t2) = (fst (client_new m s p (cr ++ t1)), set_rng (snd (client_new m s p (cr ++ t1))) t').
Proof.
  intros L F1 F2 U. unfold client_new, or_alert. destruct (handshake_twin m cr t1 t2 j1 j2 (client_init s p []) L F1 F2 U) as (t' & E).
  change (set_rng (client_init s p []) (cr ++ t2)) with (client_init s p (cr ++ t2)) in E. change (set_rng (client_init s p []) (cr ++ t1)) with (client_init s p (cr ++ t1)) in E.
  rewrite E. destruct (client_handshake m (client_init s p (cr ++ t1))) as [[y|k| |] c1]; cbn [fst snd]; eauto.
  destruct (st_alert m k c1 t') as [Ea _]. rewrite Ea. destruct (send_tls_alert m k c1) as [[] c2]; cbn [fst snd]; eauto.
Qed.
(** a private value that differs from that of [one_tape] in everything but the 56 bits *)
Definition other_tape : rng := firstn 32 one_tape ++ [x01; xff; xff; xff] ++ concat (repeat [x00; xff; xff; xff] 6) ++ [xff; xff; xff; x7f].
Lemma other_accepted : first_accepted (skipn 32 other_tape) 0 /\ draw (skipn 32 other_tape) 0 <> draw (skipn 32 one_tape) 0 /\
  used_scalar (draw (skipn 32 other_tape) 0) = used_scalar (draw (skipn 32 one_tape) 0).
Proof. split; [|split]; [split; [cbn; lia|split; [vm_compute; reflexivity|intros; lia]]|vm_compute; discriminate|vm_compute; reflexivity]. Qed.
Lemma same_connection m : exists s g1 g2 c1 t', firstn 32 g1 = firstn 32 g2 /\ first_accepted (skipn 32 g1) 0 /\ first_accepted (skipn 32 g2) 0 /\
  draw (skipn 32 g1) 0 <> draw (skipn 32 g2) 0 /\
  client_new m s [] g1 = (Ok tt, c1) /\ client_new m s [] g2 = (Ok tt, set_rng c1 t').
Proof.
  destruct (conforming_run m plain_server (fun _ => []) plain_wf) as (s & ss & c & _ & _ & E & _).
  destruct other_accepted as (F & D & U).
  destruct (key_space m s [] (firstn 32 one_tape) (skipn 32 one_tape) (skipn 32 other_tape) 0 0) as (t' & K); [reflexivity|exact one_accepted|exact F|symmetry; exact U|].
  change (firstn 32 one_tape ++ skipn 32 one_tape) with one_tape in K. change (firstn 32 one_tape ++ skipn 32 other_tape) with other_tape in K. rewrite E in K.
  exists s, one_tape, other_tape, c, t'. split; [reflexivity|]. split; [exact one_accepted|]. split; [exact F|]. split; [congruence|]. split; [exact E|exact K].
Qed.
