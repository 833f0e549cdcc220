(** Proofs for C113. *)
From Verif Require Export Spec_Hold.
From Verif Require Import P_Util P_Codec P_CodecProps P_RecordW P_RecordR P_Record P_Record2 P_Aead P_Client P_Client2 P_App P_App2 P_Client3 P_Client4 P_Client5 P_Pending P_Accept P_Receive P_Build.
From Coq Require Import ZifyBool ZifyNat ZifyN.
Local Open Scope list_scope.
Local Open Scope Z_scope.
#[local] Opaque SHA256 HMAC aead_seal aead_decrypt aead_encrypt compute_keys PRF nmul.

Lemma pending_most p : incomplete p -> zlen p <= most_pending.
Proof.
  intros (ty & body & q & L & E & N). pose proof (f_equal zlen E) as F. unfold frame, sp_vec in F. rewrite !zlen_app in F.
  change (zlen [ty]) with 1 in F. unfold zlen at 1 in F. rewrite be_length in F. unfold most_pending.
  assert (0 < zlen q) by (destruct q; [destruct N; reflexivity|rewrite zlen_cons; pose proof (zlen_nonneg q); lia]). lia.
Qed.
Lemma wire_len t maj min f : zlen (wire t maj min f) = zlen f + 5.
Proof. rewrite <- (app_nil_r (wire t maj min f)), long_wire. change (zlen []) with 0. lia. Qed.
Lemma unseals_weight v t maj min f p v' : unseals v t maj min f (Ok p) v' -> p <> [] -> zlen f + 5 <= weight v * zlen p /\ weight v' = weight v.
Proof.
  intros U N. assert (0 < zlen p) by (destruct p; [destruct N; reflexivity|rewrite zlen_cons; pose proof (zlen_nonneg p); lia]).
  inversion U as [| |key iv k t' maj' min' f' p' P L| |]; subst; cbn [weight]; [split; [lia|reflexivity]|]. unfold protects in P. subst f. rewrite seal_len. split; [lia|reflexivity].
Qed.
(** one record: what it takes is short, and what follows does not matter, or the stream ends within it *)
Lemma fetch_held v bs x v' bs' : fetch v bs x v' bs' ->
  (exists a, bs = a ++ bs' /\ zlen a <= record_limit /\ forall z, fetch v (a ++ z) x v' z) \/ (x = Err IoFailure /\ zlen bs <= record_limit).
Proof.
  unfold record_limit. intros F. inversion F as [v0 b0 C|v0 b b0 N|v0 t maj min n b0 L|v0 t maj min f b0 p v1 L U|v0 t maj min f b0 e v1 L U|v0 t maj min f b0 v1 L U]; subst.
  - right. split; [reflexivity|]. destruct C as [-> |(t & l & -> & [C|(maj & min & n & f & -> & C)])]; [change (zlen []) with 0; lia|rewrite zlen_cons; lia|].
    rewrite !zlen_cons, zlen_app. unfold zlen at 1. rewrite be_length. lia.
  - left. exists [b]. split; [reflexivity|]. split; [change (zlen [b]) with 1; lia|]. intros z. cbn [app]. apply G_type. exact N.
  - left. exists (z2b (rfc_content_type t) :: maj :: min :: be 2 n). split; [reflexivity|]. split; [rewrite !zlen_cons; unfold zlen; rewrite be_length; lia|].
    intros z. cbn [app]. apply G_long. exact L.
  - left. exists (wire t maj min f). split; [reflexivity|]. rewrite wire_len. split; [lia|]. intros z. eapply G_record; eassumption.
  - left. exists (wire t maj min f). split; [reflexivity|]. rewrite wire_len. split; [lia|]. intros z. eapply G_refused; eassumption.
  - left. exists (wire t maj min f). split; [reflexivity|]. rewrite wire_len. split; [lia|]. intros z. eapply G_panic; eassumption.
Qed.
Definition spent (v : cover) (pend : bytes) (n : Z) : Prop := n = 0 \/ (zlen pend <= most_pending /\ n <= weight v * (most_pending - zlen pend) + record_limit).
Lemma spent_record v pend n : incomplete pend -> n <= record_limit -> spent v pend n.
Proof.
  intros I L. right. apply pending_most in I. split; [exact I|]. assert (0 <= weight v) by (destruct v; cbn; lia). nia.
Qed.
Lemma comes_held v pend bs x v' pend' bs' : comes v pend bs x v' pend' bs' ->
  (exists a, bs = a ++ bs' /\ spent v pend (zlen a) /\ forall z, comes v pend (a ++ z) x v' pend' z) \/ (x = Err IoFailure /\ spent v pend (zlen bs)).
Proof.
  induction 1 as [v ty body q bs h L H|v ty body q bs e L H|v pend bs e v' bs' N F|v pend bs v' bs' N F|v pend bs t pl v' bs' x N F K|v pend bs v' bs' N F|v pend bs pl v1 bs1 x v' pend' bs' N F Np C IH].
  - left. exists []. split; [reflexivity|]. split; [left; reflexivity|]. intros z. apply N_message; assumption.
  - left. exists []. split; [reflexivity|]. split; [left; reflexivity|]. intros z. apply N_malformed; assumption.
  - apply fetch_held in F as [(a & -> & L & F)|(X & L)]; [left|right; split; [congruence|apply spent_record; assumption]].
    exists a. split; [reflexivity|]. split; [apply spent_record; assumption|]. intros z. apply N_error; [exact N|apply F].
  - apply fetch_held in F as [(a & -> & L & F)|(X & L)]; [left|discriminate X].
    exists a. split; [reflexivity|]. split; [apply spent_record; assumption|]. intros z. apply N_panic; [exact N|apply F].
  - apply fetch_held in F as [(a & -> & L & F)|(X & L)]; [left|discriminate X].
    exists a. split; [reflexivity|]. split; [apply spent_record; assumption|]. intros z. eapply N_other; [exact N|apply F|exact K].
  - apply fetch_held in F as [(a & -> & L & F)|(X & L)]; [left|discriminate X].
    exists a. split; [reflexivity|]. split; [apply spent_record; assumption|]. intros z. eapply N_empty; [exact N|apply F].
  - assert (Fi : exists a, bs = a ++ bs1 /\ zlen a <= record_limit /\ zlen a <= weight v * zlen pl /\ weight v1 = weight v /\ forall z, fetch v (a ++ z) (Ok (HandshakeTy, pl)) v1 z).
    { inversion F as [| | |v0 t maj min f b0 p v2 L U| |]; subst. exists (wire HandshakeTy maj min f). destruct (unseals_weight _ _ _ _ _ _ _ U Np) as (W1 & W2).
      split; [reflexivity|]. rewrite wire_len. unfold record_limit. split; [lia|]. split; [exact W1|]. split; [exact W2|]. intros z. eapply G_record; eassumption. }
    destruct Fi as (a & -> & La & Wa & Ew & Fz).
    assert (S : forall n, 0 <= n -> spent v1 (pend ++ pl) n -> spent v pend (zlen a + n)).
    { intros n Hn [-> |(S1 & S2)]; [rewrite Z.add_0_r; apply spent_record; assumption|]. right. rewrite zlen_app, Ew in *. pose proof (zlen_nonneg pl). split; [lia|]. nia. }
    destruct IH as [(b & -> & Sb & Cb)|(X & Sb)].
    + left. exists (a ++ b). rewrite <- app_assoc. split; [reflexivity|]. rewrite zlen_app. split; [apply S; [apply zlen_nonneg|exact Sb]|].
      intros z. rewrite <- app_assoc. eapply N_more; [exact N|apply Fz|exact Np|apply Cb].
    + right. split; [exact X|]. rewrite zlen_app. apply S; [apply zlen_nonneg|exact Sb].
Qed.
Lemma spent_limit v pend n : spent v pend n -> n <= message_limit v.
Proof. unfold message_limit, most_pending, record_limit. intros [-> |(A & B)]; destruct v; cbn [weight] in *; pose proof (zlen_nonneg pend); unfold most_pending, record_limit in *; lia. Qed.
Lemma comes_limit v pend bs x v' pend' bs' : comes v pend bs x v' pend' bs' ->
  (exists a, bs = a ++ bs' /\ zlen a <= message_limit v /\ forall z, comes v pend (a ++ z) x v' pend' z) \/ (x = Err IoFailure /\ zlen bs <= message_limit v).
Proof.
  intros C. apply comes_held in C as [(a & E & S & C)|(X & S)]; apply spent_limit in S; [left; exists a; auto|right; auto].
Qed.
Lemma asks_limit v pend bs x v' pend' bs' : asks v pend bs x v' pend' bs' ->
  (exists a, bs = a ++ bs' /\ zlen a <= message_limit v /\ forall z, asks v pend (a ++ z) x v' pend' z) \/ (x = Err IoFailure /\ zlen bs <= message_limit v).
Proof.
  intros (y & C & ->). apply comes_limit in C as [(a & E & L & C)|(-> & L)]; [left|right; split; [reflexivity|exact L]].
  exists a. split; [exact E|]. split; [exact L|]. intros z. exists y. auto.
Qed.
Lemma asks_ok v pend bs h v' pend' bs' : asks v pend bs (Ok h) v' pend' bs' -> exists a, bs = a ++ bs' /\ zlen a <= message_limit v /\ forall z, asks v pend (a ++ z) (Ok h) v' pend' z.
Proof. intros A. apply asks_limit in A as [A|(X & _)]; [exact A|discriminate X]. Qed.

Lemma greeted_held bs sh p b : greeted bs sh p b -> exists a, bs = a ++ b /\ zlen a <= message_limit Clear /\ forall z, greeted (a ++ z) sh p z.
Proof.
  intros G. inversion G as [sh' p1 b1 A O]; subst. apply asks_ok in A as (a & E & L & A). exists a. split; [exact E|]. split; [exact L|]. intros z. econstructor; [apply A|exact O].
Qed.
Lemma shown_held bs sh certs p b : shown bs sh certs p b -> exists a, bs = a ++ b /\ zlen a <= 2 * message_limit Clear /\ forall z, shown (a ++ z) sh certs p z.
Proof.
  intros G. inversion G as [sh' certs' p1 b1 p2 b2 S A]; subst. apply greeted_held in S as (a & -> & L & S). apply asks_ok in A as (a2 & -> & L2 & A).
  exists (a ++ a2). rewrite <- app_assoc, zlen_app. split; [reflexivity|]. split; [lia|]. intros z. rewrite <- app_assoc. econstructor; [apply S|apply A].
Qed.
Lemma given_held bs sh certs skx p b : given bs sh certs skx p b -> exists a, bs = a ++ b /\ zlen a <= 3 * message_limit Clear /\ forall z, given (a ++ z) sh certs skx p z.
Proof.
  intros G. inversion G as [sh' certs' skx' p1 b1 p2 b2 S A]; subst. apply shown_held in S as (a & -> & L & S). apply asks_ok in A as (a2 & -> & L2 & A).
  exists (a ++ a2). rewrite <- app_assoc, zlen_app. split; [reflexivity|]. split; [lia|]. intros z. rewrite <- app_assoc. econstructor; [apply S|apply A].
Qed.
Lemma passes_held m g bs ss p b : passes m g bs ss p b -> exists a, bs = a ++ b /\ zlen a <= 4 * message_limit Clear /\ forall z, passes m g (a ++ z) ss p z.
Proof.
  intros (L & Cr & p3 & b3 & g' & G & K & A). apply given_held in G as (a & -> & La & G). apply asks_ok in A as (a2 & -> & L2 & A).
  exists (a ++ a2). rewrite <- app_assoc, zlen_app. split; [reflexivity|]. split; [lia|]. intros z. split; [exact L|]. split; [exact Cr|].
  exists p3, (a2 ++ z), g'. rewrite <- app_assoc. split; [apply G|]. split; [exact K|apply A].
Qed.
Definition within (n : Z) (bs : bytes) (P : bytes -> Prop) : Prop := (exists a r, bs = a ++ r /\ zlen a <= n /\ forall z, P (a ++ z)) \/ zlen bs <= n.
Lemma within_le n n' bs P : n <= n' -> within n bs P -> within n' bs P.
Proof. intros L [(a & r & E & La & H)|H]; [left; exists a, r; split; [exact E|split; [lia|exact H]]|right; lia]. Qed.
Lemma asks_within a0 n v pend b x v' p b' (P : bytes -> Prop) : zlen a0 <= n -> asks v pend b x v' p b' ->
  (forall z1 z, asks v pend z1 x v' p z -> P (a0 ++ z1)) -> within (n + message_limit v) (a0 ++ b) P.
Proof.
  intros L A H. apply asks_limit in A as [(a & -> & La & A)|(_ & La)]; [left|right; rewrite zlen_app; lia].
  exists (a0 ++ a), b'. rewrite <- app_assoc, zlen_app. split; [reflexivity|]. split; [lia|]. intros z. rewrite <- app_assoc. eapply H. apply A.
Qed.
Lemma flight_within m g bs y : flight_ends m g bs y -> within (4 * message_limit Clear) bs (fun b => flight_ends m g b y).
Proof.
  assert (Pos : 0 <= message_limit Clear) by (vm_compute; discriminate).
  intros F. destruct F as [x y v p b A T|sh p b A O|sh p1 b1 x y v p b G A T|sh certs p2 b2 x y v p b S A T|sh certs skx p3 b3 e g' G K|sh certs skx p3 b3 g' G K|sh certs skx p3 b3 kp g' x y v p b G K A T].
  - apply (within_le (0 + message_limit Clear)); [lia|]. apply (asks_within [] 0 Clear [] bs x v p b); [change (zlen []) with 0; lia|exact A|].
    intros z1 z H. cbn [app]. eapply S_hello; [exact H|exact T].
  - apply (within_le (message_limit Clear)); [lia|]. apply asks_ok in A as (a & -> & L & A). left. exists a, b. split; [reflexivity|]. split; [exact L|].
    intros z. eapply S_parameters; [apply A|exact O].
  - apply greeted_held in G as (a & -> & L & G). apply (within_le (message_limit Clear + message_limit Clear)); [lia|].
    apply (asks_within a (message_limit Clear) Clear p1 b1 x v p b); [exact L|exact A|]. intros z1 z H. eapply S_certificate; [apply G|exact H|exact T].
  - apply shown_held in S as (a & -> & L & S). apply (within_le (2 * message_limit Clear + message_limit Clear)); [lia|].
    apply (asks_within a (2 * message_limit Clear) Clear p2 b2 x v p b); [exact L|exact A|]. intros z1 z H. eapply S_exchange; [apply S|exact H|exact T].
  - apply given_held in G as (a & -> & L & G). left. exists a, b3. split; [reflexivity|]. split; [lia|]. intros z. eapply S_keys; [apply G|exact K].
  - apply given_held in G as (a & -> & L & G). left. exists a, b3. split; [reflexivity|]. split; [lia|]. intros z. eapply S_crash; [apply G|exact K].
  - apply given_held in G as (a & -> & L & G). apply (within_le (3 * message_limit Clear + message_limit Clear)); [lia|].
    apply (asks_within a (3 * message_limit Clear) Clear p3 b3 x v p b); [exact L|exact A|]. intros z1 z H. eapply S_done; [apply G|exact K|exact H|exact T].
Qed.
Lemma comes_ok v pend bs h v' pend' bs' : comes v pend bs (Ok h) v' pend' bs' -> exists a, bs = a ++ bs' /\ zlen a <= message_limit v /\ forall z, comes v pend (a ++ z) (Ok h) v' pend' z.
Proof. intros A. apply comes_limit in A as [A|(X & _)]; [exact A|discriminate X]. Qed.
Lemma building_within m g bs x st : building m g bs x st -> within hold_limit bs (fun b => building m g b x st).
Proof.
  assert (E0 : forall ss, hold_limit = 5 * message_limit Clear + message_limit (server_cover ss)) by reflexivity.
  assert (Pos : 0 <= message_limit Clear) by (vm_compute; discriminate). assert (Pos2 : 4 * message_limit Clear + message_limit Clear <= hold_limit) by (vm_compute; discriminate).
  intros B. destruct B as [L|y L F|ss pend rest x v p b P C N|ss pend rest p1 b1 x y v p b P C A T|ss pend rest p1 b1 d v p b P C A D|ss pend rest p1 b1 v p b P C A].
  - left. exists [], bs. split; [reflexivity|]. split; [change (zlen []) with 0; lia|]. intros z. apply B_tape. exact L.
  - apply (within_le (4 * message_limit Clear)); [lia|]. apply flight_within in F as [(a & r & E & La & F)|F]; [left|right; exact F].
    exists a, r. split; [exact E|]. split; [exact La|]. intros z. apply B_first; [exact L|apply F].
  - apply passes_held in P as (a & -> & L & P). apply comes_limit in C as [(a2 & -> & L2 & C)|(_ & L2)]; [left|right; rewrite zlen_app; lia].
    exists (a ++ a2), b. rewrite <- app_assoc, zlen_app. split; [reflexivity|]. split; [lia|]. intros z. rewrite <- app_assoc. eapply B_ccs; [apply P|apply C|exact N].
  - apply passes_held in P as (a & -> & L & P). apply comes_ok in C as (a2 & -> & L2 & C).
    rewrite app_assoc, (E0 ss). apply (asks_within (a ++ a2) (5 * message_limit Clear) (server_cover ss) p1 b1 x v p b); [rewrite zlen_app; lia|exact A|].
    intros z1 z H. rewrite <- app_assoc. eapply B_finished; [apply P|apply C|exact H|exact T].
  - apply passes_held in P as (a & -> & L & P). apply comes_ok in C as (a2 & -> & L2 & C).
    rewrite app_assoc, (E0 ss). apply (asks_within (a ++ a2) (5 * message_limit Clear) (server_cover ss) p1 b1 (Ok (finished d)) v p b); [rewrite zlen_app; lia|exact A|].
    intros z1 z H. rewrite <- app_assoc. eapply B_verify; [apply P|apply C|exact H|exact D].
  - apply passes_held in P as (a & -> & L & P). apply comes_ok in C as (a2 & -> & L2 & C).
    rewrite app_assoc, (E0 ss). apply (asks_within (a ++ a2) (5 * message_limit Clear) (server_cover ss) p1 b1 (Ok (finished (expected_server ss))) v p b); [rewrite zlen_app; lia|exact A|].
    intros z1 z H. rewrite <- app_assoc. eapply B_done; [apply P|apply C|exact H].
Qed.
(** more bytes than the limit decide *)
Theorem decided : forall m p g a x y s s', hold_limit < zlen a -> healthy (writer_new p) -> clean s -> clean s' -> stream s = a ++ x -> stream s' = a ++ y ->
  zlen (stream s) < 2 ^ 64 -> zlen (stream s') < 2 ^ 64 ->
  fst (client_new m s p g) = fst (client_new m s' p g) /\ w_out (c_writer (snd (client_new m s p g))) = w_out (c_writer (snd (client_new m s' p g))).
Proof.
  intros m p g a x y s s' L H C C' S S' R R'. destruct (client_new m s p g) as [r c] eqn:E.
  destruct (proj1 (building_iff m s p g r (w_out (c_writer c)) H C R)) as (st & B & O); [eauto|].
  rewrite S in B. apply building_within in B as [(b & t & Eb & Lb & B)|B]; [|rewrite zlen_app in B; pose proof (zlen_nonneg x); lia].
  assert (X : exists b2, a = b ++ b2).
  { apply app_eq_app in Eb as (l & [(E1 & _)|(E1 & _)]); [exists l; exact E1|]. exists []. rewrite app_nil_r.
    pose proof (f_equal zlen E1) as F. rewrite zlen_app in F. pose proof (zlen_nonneg l). lia. }
  destruct X as (b2 & ->). specialize (B (b2 ++ y)). rewrite app_assoc, <- S' in B.
  destruct (building_sound m s' p g r st H C' R' B) as (_ & c' & E' & O'). rewrite E'. cbn [fst snd]. split; [reflexivity|]. rewrite O, O'. reflexivity.
Qed.
