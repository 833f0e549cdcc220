(** Proofs for C109, C113 and C114 on transports that may fail at any read and at any write. *)
From Verif Require Export Spec_Crash Spec_Any P_Any P_Crash2 P_Face.
From Verif Require Import P_Util P_RecordW P_RecordR P_Record P_Client P_Client4 P_Accept P_Build.
From Coq Require Import ZifyBool ZifyNat ZifyN.
Local Open Scope list_scope.
Local Open Scope Z_scope.
#[local] Opaque SHA256 HMAC aead_seal aead_decrypt aead_encrypt compute_keys PRF nmul.

Lemma venture_carry m m' g b b' p x out : (forall y st, building m g b y st -> building m' g b' y st) -> venture m g b p x out -> venture m' g b' p x out.
Proof.
  intros F [y st o q B D|y st o q B N D|e st o1 q ok o2 q2 B N D1 D2]; [eapply V_cut|eapply V_quiet|eapply V_alert]; eauto.
Qed.
Lemma venture_new m s p g : zlen (stream s) < 2 ^ 64 -> venture m g (stream s) p (fst (client_new m s p g)) (w_out (c_writer (snd (client_new m s p g)))).
Proof. intros R. apply (venture_iff m s p g _ _ R). destruct (client_new m s p g) as [x c]. exists c. auto. Qed.
(** two runs whose ventures are one *)
Lemma venture_same m m' s s' p g : zlen (stream s) < 2 ^ 64 -> zlen (stream s') < 2 ^ 64 ->
  (forall y st, building m g (stream s) y st -> building m' g (stream s') y st) ->
  fst (client_new m s p g) = fst (client_new m' s' p g) /\ w_out (c_writer (snd (client_new m s p g))) = w_out (c_writer (snd (client_new m' s' p g))).
Proof.
  intros R R' F. pose proof (venture_carry _ m' _ _ (stream s') _ _ _ F (venture_new m s p g R)) as V. pose proof (venture_new m' s' p g R') as V'.
  exact (venture_one _ _ _ _ _ _ _ _ R' V' V).
Qed.
(** C113 *)
Theorem decided_any : forall m p g a x y s s', hold_limit < zlen a -> stream s = a ++ x -> stream s' = a ++ y ->
  zlen (stream s) < 2 ^ 64 -> zlen (stream s') < 2 ^ 64 ->
  fst (client_new m s p g) = fst (client_new m s' p g) /\ w_out (c_writer (snd (client_new m s p g))) = w_out (c_writer (snd (client_new m s' p g))).
Proof.
  intros m p g a x y s s' L S S' R R'. apply (venture_same m m s s' p g R R'). intros z st B.
  rewrite S in B. apply building_within in B as [(b & t & Eb & Lb & B)|B]; [|rewrite zlen_app in B; pose proof (zlen_nonneg x); lia].
  assert (X : exists b2, a = b ++ b2).
  { apply app_eq_app in Eb as (l & [(E1 & _)|(E1 & _)]); [exists l; exact E1|]. exists []. rewrite app_nil_r.
    rewrite E1, zlen_app in Lb. destruct l as [|w l]; [rewrite app_nil_r in E1; symmetry; exact E1|]. rewrite zlen_cons in Lb. pose proof (zlen_nonneg l). lia. }
  destruct X as (b2 & ->). rewrite S', <- app_assoc. apply B.
Qed.
(** C109 *)
Theorem breaks_down_any : forall m s p g, zlen (stream s) < 2 ^ 64 ->
  (fst (client_new m s p g) = Panic <-> breaks_down m g (stream s) /\ fst (client_new m s p g) <> Err IoFailure).
Proof.
  intros m s p g R. pose proof (venture_new m s p g R) as V. split.
  - intros E. rewrite E in *. split; [|discriminate]. apply panics_iff. inversion V as [|y st o q B N D|e st o1 q ok o2 q2 B N D1 D2]; subst; [eauto|destruct ok; discriminate].
  - intros (K & N). apply panics_iff in K as (st & B).
    destruct V as [y st' o q B' D|y st' o q B' _ D|e st' o1 q ok o2 q2 B' _ D1 D2]; [contradiction|..]; destruct (building_once _ _ _ _ _ _ _ R B B') as [Y _]; [symmetry; exact Y|discriminate Y].
Qed.
Theorem builds_part_any : forall s p g, zlen (stream s) < 2 ^ 64 ->
  (parting g (stream s) /\ (exists c, client_new Debug s p g = (Panic, c) /\ w_out (c_writer c) = flight_hello (firstn 32 g) \/
                                      client_new Debug s p g = (Err IoFailure, c) /\ exists unsent, flight_hello (firstn 32 g) = w_out (c_writer c) ++ unsent)) \/
  (~ parting g (stream s) /\ exists x c c', client_new Debug s p g = (x, c) /\ client_new Release s p g = (x, c') /\ w_out (c_writer c) = w_out (c_writer c')).
Proof.
  intros s p g R. destruct (parting_dec g (stream s) R) as [Q|Q]; [left|right]; (split; [exact Q|]).
  - pose proof (venture_new Debug s p g R) as V. pose proof (parting_debug _ _ Q) as B. destruct (client_new Debug s p g) as [x c]. cbn [fst snd] in V. exists c.
    inversion V as [y st' o q B' D|y st' o q B' N D|e st' o1 q ok o2 q2 B' N D1 D2]; subst; destruct (building_once _ _ _ _ _ _ _ R B B') as [Y Y2].
    + right. split; [reflexivity|]. subst st'. apply delivery_false in D as (u & E). exists u. exact E.
    + left. subst. split; [reflexivity|]. apply delivery_true in D. exact D.
    + discriminate Y.
  - destruct (venture_same Debug Release s s p g R R) as (E & O).
    { intros y st B. destruct (builds_alike _ _ _ _ B) as [Q'|B']; [contradiction|exact B']. }
    destruct (client_new Debug s p g) as [x c], (client_new Release s p g) as [x' c']. cbn [fst snd] in E, O. subst x'. exists x, c, c'. auto.
Qed.
(** C114 *)
Lemma says_first_part m s p g l : zlen (stream s) < 2 ^ 64 -> (32 <= length g)%nat -> exists unsent more, client_says m s p g l ++ unsent = flight_hello (firstn 32 g) ++ more.
Proof.
  intros R Lg. pose proof (venture_new m s p g R) as V. unfold client_says. destruct (client_new m s p g) as [x c] eqn:E. cbn [fst snd] in V.
  assert (St : forall y st, building m g (stream s) y st -> exists q, stage_out st = flight_hello (firstn 32 g) ++ q).
  { intros y st B. destruct (stage_hello _ _ _ _ _ Lg B) as (q & Eq). exists q. exact Eq. }
  assert (K : exists unsent more, w_out (c_writer c) ++ unsent = flight_hello (firstn 32 g) ++ more).
  { destruct (venture_prefix _ _ _ _ _ _ V) as (y & st & u & B & O & _). destruct (St y st B) as (q & Eq). unfold all_sent in O. rewrite Eq, <- app_assoc in O.
    exists u. eexists. symmetry. exact O. }
  destruct x as [[]|e| |]; try exact K. exists [].
  assert (K2 : exists more, w_out (c_writer c) = flight_hello (firstn 32 g) ++ more).
  { inversion V as [|y st o q B N D|e st o1 q ok o2 q2 B N D1 D2]; subst; [|destruct ok; discriminate]. apply delivery_true in D. rewrite D. exact (St _ _ B). }
  destruct K2 as (more & K2). destruct (api_sealed m s p g c l E) as (ss & log & pieces & _ & _ & _ & O & _). rewrite O, K2, app_nil_r, <- app_assoc. eexists. reflexivity.
Qed.
Theorem client_to_client_any : forall m s p g m' s' p' g' l r, zlen (stream s) < 2 ^ 64 -> (32 <= length g)%nat ->
  zlen (stream s') < 2 ^ 64 -> (32 <= length g')%nat -> client_says m' s' p' g' l = stream s ++ r ->
  exists e c unsent, client_new m s p g = (Err e, c) /\ (e = UnexpectedMessage /\ unsent = [] \/ e = IoFailure) /\
    flight_hello (firstn 32 g) ++ (if hello_size <=? zlen (stream s) then e_record AlertTy [x02; x0a] else []) = w_out (c_writer c) ++ unsent.
Proof.
  intros m s p g m' s' p' g' l r R Lg R' Lg' E. destruct (says_first_part m' s' p' g' l R' Lg') as (u & more & Em). rewrite E, <- app_assoc in Em.
  assert (Lf : length (firstn 32 g') = 32%nat) by (rewrite firstn_length; lia). pose proof (hello_building m g (stream s) _ _ _ Lg Lf Em) as B.
  pose proof (venture_new m s p g R) as V. destruct (client_new m s p g) as [x c]. cbn [fst snd] in V.
  destruct (venture_prefix _ _ _ _ _ _ V) as (y & st & un & B' & O & X). destruct (building_once _ _ _ _ _ _ _ R B B') as [Y Y2]. subst y st.
  assert (A : all_sent (Err (verdict (zlen (stream s)))) (Hello (firstn 32 g)) = flight_hello (firstn 32 g) ++ (if hello_size <=? zlen (stream s) then e_record AlertTy [x02; x0a] else [])).
  { unfold all_sent, verdict. destruct (hello_size <=? zlen (stream s)); reflexivity. }
  rewrite A in O. destruct X as [(-> & ->)| -> ].
  - exists (verdict (zlen (stream s))), c, []. split; [reflexivity|]. split; [|exact O]. unfold verdict. destruct (hello_size <=? zlen (stream s)); auto.
  - exists IoFailure, c, un. auto.
Qed.
Theorem two_clients_any : forall m s p g l m' s' p' g' l' r r', zlen (stream s) < 2 ^ 64 -> (32 <= length g)%nat -> zlen (stream s') < 2 ^ 64 -> (32 <= length g')%nat ->
  client_says m' s' p' g' l' = stream s ++ r -> client_says m s p g l = stream s' ++ r' ->
  fst (client_new m s p g) <> Ok tt /\ fst (client_new m' s' p' g') <> Ok tt /\ zlen (stream s) <= hello_size + 7 /\ zlen (stream s') <= hello_size + 7.
Proof.
  assert (Q : forall m s p g l m' s' p' g' l' r r', zlen (stream s) < 2 ^ 64 -> (32 <= length g)%nat -> zlen (stream s') < 2 ^ 64 -> (32 <= length g')%nat ->
    client_says m' s' p' g' l' = stream s ++ r -> client_says m s p g l = stream s' ++ r' -> fst (client_new m s p g) <> Ok tt /\ zlen (stream s') <= hello_size + 7).
  { intros m s p g l m' s' p' g' l' r r' R Lg R' Lg' E E'.
    destruct (client_to_client_any m s p g m' s' p' g' l' r R Lg R' Lg' E) as (e & c & u & Ec & _ & O). rewrite Ec. split; [discriminate|].
    unfold client_says in E'. rewrite Ec in E'. rewrite E' in O. apply (f_equal zlen) in O. rewrite !zlen_app, hello_len in O by (rewrite firstn_length; lia).
    pose proof (zlen_nonneg r'). pose proof (zlen_nonneg u). destruct (hello_size <=? zlen (stream s)); unfold e_record in O; [rewrite wire_len in O|]; change (zlen [x02; x0a]) with 2 in O; change (zlen (@nil byte)) with 0 in O; lia. }
  intros m s p g l m' s' p' g' l' r r' R Lg R' Lg' E E'.
  destruct (Q m s p g l m' s' p' g' l' r r' R Lg R' Lg' E E') as (A & B). destruct (Q m' s' p' g' l' m s p g l r' r R' Lg' R Lg E' E) as (A' & B'). auto.
Qed.
