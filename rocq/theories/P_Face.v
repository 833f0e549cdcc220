(** Proofs for C114: clients that get what clients send. *)
From Verif Require Export Spec_Face P_Hold2 P_Origin2 P_Api.
From Verif Require Import P_Util P_Codec P_CodecProps P_RecordW P_RecordR P_Record P_Record2 P_Aead P_Client P_Client2 P_App P_App2 P_Client3 P_Client4 P_Client5 P_Pending P_Accept P_Receive P_Build P_Open.
From Coq Require Import ZifyBool ZifyNat ZifyN.
Local Open Scope list_scope.
Local Open Scope Z_scope.
#[local] Opaque SHA256 HMAC aead_seal aead_decrypt aead_encrypt compute_keys PRF nmul.

Lemma cut_prefix t maj min body z b r : b ++ r = wire t maj min body ++ z -> zlen b < 5 + zlen body -> zlen body <= 18432 -> cut_record b.
Proof.
  unfold wire. intros E L Lb. destruct (be 2 (zlen body)) as [|h [|l [|? ?]]] eqn:Eb;
    try (apply (f_equal (@length byte)) in Eb; rewrite be_length in Eb; discriminate Eb).
  cbn [app] in E. destruct b as [|b0 b]; [left; reflexivity|]. right. injection E as -> E. exists t, b. split; [reflexivity|].
  destruct b as [|b1 [|b2 [|b3 [|b4 f]]]]; try (left; rewrite ?zlen_cons; change (zlen (@nil byte)) with 0; lia).
  right. cbn [app] in E. injection E as -> -> -> -> E. exists maj, min, (zlen body), f. rewrite Eb. split; [reflexivity|]. rewrite !zlen_cons in L. lia.
Qed.
Lemma offer_size cr : length cr = 32%nat -> zlen (e_handshake (offer cr)) = 69.
Proof. intros L. unfold e_handshake, sp_vec. rewrite !zlen_app, offer_body by exact L. change (zlen [_]) with 1. unfold zlen. rewrite be_length. reflexivity. Qed.
Lemma hello_len cr : length cr = 32%nat -> zlen (flight_hello cr) = hello_size.
Proof. intros L. unfold flight_hello, e_record. rewrite wire_len, offer_size by exact L. reflexivity. Qed.
Lemma nil_incomplete : incomplete [].
Proof. destruct long_pending as (b & I & _). exact (incomplete_prefix [] b I). Qed.

Definition verdict (n : Z) : errkind := if hello_size <=? n then UnexpectedMessage else IoFailure.
(** the construction on a part of a ClientHello, and on one with whatever follows *)
Lemma hello_building m g bs cr r z : (32 <= length g)%nat -> length cr = 32%nat -> bs ++ r = flight_hello cr ++ z ->
  building m g bs (Err (verdict (zlen bs))) (Hello (firstn 32 g)).
Proof.
  intros Lg Lc E. pose proof (hello_len cr Lc) as Lh. unfold verdict. destruct (Z.leb_spec hello_size (zlen bs)) as [L|L].
  - assert (X : exists q, bs = flight_hello cr ++ q).
    { apply app_eq_app in E as (l & [(E1 & _)|(E1 & E2)]); [exists l; exact E1|]. exists []. rewrite app_nil_r.
      assert (l = []) as -> by (destruct l as [|y l]; [reflexivity|]; rewrite E1, zlen_app, zlen_cons in Lh; pose proof (zlen_nonneg l); lia).
      rewrite app_nil_r in E1. symmetry. exact E1. }
    destruct X as (q & ->).
    apply B_first; [exact Lg|]. apply (S_hello m (skipn 32 g) _ (Ok (offer cr)) (Err UnexpectedMessage) Clear [] q).
    + exists (Ok (HandshakeMessage (offer cr))). split; [|reflexivity]. unfold flight_hello.
      apply (N_more Clear [] _ (e_handshake (offer cr)) Clear q); [exact nil_incomplete| |discriminate|].
      * apply G_record; [rewrite offer_size by exact Lc; lia|]. apply O_clear. rewrite offer_size by exact Lc. lia.
      * cbn [app]. rewrite <- (app_nil_r (e_handshake (offer cr))). apply (N_message Clear (z2b (hs_type (offer cr))) (e_hs_body (offer cr)) [] q (offer cr)).
        -- rewrite offer_body by exact Lc. lia.
        -- exact (hs_read_enc _ (wf_offer cr Lc)).
    + apply T_other. intros (sh & X). discriminate X.
  - assert (K : cut_record bs).
    { unfold flight_hello, e_record in E. eapply cut_prefix; [exact E| |]; rewrite offer_size by exact Lc; [unfold hello_size in L; lia|lia]. }
    apply B_first; [exact Lg|]. apply (S_hello m (skipn 32 g) _ (Err IoFailure) (Err IoFailure) Clear [] []); [|constructor].
    exists (Err IoFailure). split; [|reflexivity]. apply N_error; [exact nil_incomplete|]. apply G_end. exact K.
Qed.
Lemma hello_back m s p g cr r z : healthy (writer_new p) -> clean s -> zlen (stream s) < 2 ^ 64 -> (32 <= length g)%nat -> length cr = 32%nat ->
  stream s ++ r = flight_hello cr ++ z ->
  exists c, client_new m s p g = (Err (verdict (zlen (stream s))), c) /\
    w_out (c_writer c) = flight_hello (firstn 32 g) ++ (if hello_size <=? zlen (stream s) then e_record AlertTy [x02; x0a] else []).
Proof.
  intros H C R Lg Lc E. destruct (building_sound m s p g _ _ H C R (hello_building m g (stream s) cr r z Lg Lc E)) as (_ & c & Ec & O).
  exists c. split; [exact Ec|]. rewrite O. unfold all_sent, verdict. destruct (hello_size <=? zlen (stream s)); reflexivity.
Qed.
Lemma stage_hello m g bs x st : (32 <= length g)%nat -> building m g bs x st -> exists q, stage_out st = flight_hello (firstn 32 g) ++ q.
Proof.
  intros Lg B. destruct B as [L|y L F|ss pend rest x v q b P|ss pend rest p1 b1 x y v q b P|ss pend rest p1 b1 d v q b P|ss pend rest p1 b1 v q b P];
    [lia|exists []; rewrite app_nil_r; reflexivity|..]; destruct P as (_ & Ecr & _); cbn [stage_out]; rewrite Ecr; eexists; reflexivity.
Qed.
(** all a client says starts with its ClientHello, if it says anything *)
Lemma says_hello m s p g l : healthy (writer_new p) -> clean s -> zlen (stream s) < 2 ^ 64 -> (32 <= length g)%nat ->
  exists more, client_says m s p g l = flight_hello (firstn 32 g) ++ more.
Proof.
  intros H C R Lg. unfold client_says. destruct (client_new m s p g) as [x c] eqn:E.
  assert (K : exists more, w_out (c_writer c) = flight_hello (firstn 32 g) ++ more).
  { destruct (proj1 (building_iff m s p g x (w_out (c_writer c)) H C R)) as (st & B & ->); [eauto|].
    destruct (stage_hello _ _ _ _ _ Lg B) as (q & Eq). unfold all_sent. rewrite Eq, <- app_assoc. eexists. reflexivity. }
  destruct x as [[]|e| |]; try exact K. destruct K as (more & K).
  destruct (api_sealed m s p g c l E) as (ss & log & pieces & _ & _ & _ & O & _). rewrite O, K, <- app_assoc. eexists. reflexivity.
Qed.
(** a client that gets what another client sends, or part of it *)
Theorem client_to_client : forall m s p g m' s' p' g' l r, healthy (writer_new p) -> clean s -> zlen (stream s) < 2 ^ 64 -> (32 <= length g)%nat ->
  healthy (writer_new p') -> clean s' -> zlen (stream s') < 2 ^ 64 -> (32 <= length g')%nat -> client_says m' s' p' g' l = stream s ++ r ->
  exists c, client_new m s p g = (Err (if hello_size <=? zlen (stream s) then UnexpectedMessage else IoFailure), c) /\
    w_out (c_writer c) = flight_hello (firstn 32 g) ++ (if hello_size <=? zlen (stream s) then e_record AlertTy [x02; x0a] else []).
Proof.
  intros m s p g m' s' p' g' l r H C R Lg H' C' R' Lg' E. destruct (says_hello m' s' p' g' l H' C' R' Lg') as (more & Em). rewrite Em in E. symmetry in E.
  assert (Lf : length (firstn 32 g') = 32%nat) by (rewrite firstn_length; lia). exact (hello_back m s p g _ r more H C R Lg Lf E).
Qed.
(** two clients joined to each other: each gets what the other says, as far as it has come *)
Theorem two_clients : forall m s p g l m' s' p' g' l' r r', healthy (writer_new p) -> clean s -> zlen (stream s) < 2 ^ 64 -> (32 <= length g)%nat ->
  healthy (writer_new p') -> clean s' -> zlen (stream s') < 2 ^ 64 -> (32 <= length g')%nat ->
  client_says m' s' p' g' l' = stream s ++ r -> client_says m s p g l = stream s' ++ r' ->
  fst (client_new m s p g) <> Ok tt /\ fst (client_new m' s' p' g') <> Ok tt /\ zlen (stream s) <= hello_size + 7 /\ zlen (stream s') <= hello_size + 7.
Proof.
  assert (Q : forall m s p g l m' s' p' g' l' r r', healthy (writer_new p) -> clean s -> zlen (stream s) < 2 ^ 64 -> (32 <= length g)%nat ->
    healthy (writer_new p') -> clean s' -> zlen (stream s') < 2 ^ 64 -> (32 <= length g')%nat ->
    client_says m' s' p' g' l' = stream s ++ r -> client_says m s p g l = stream s' ++ r' -> fst (client_new m s p g) <> Ok tt /\ zlen (stream s') <= hello_size + 7).
  { intros m s p g l m' s' p' g' l' r r' H C R Lg H' C' R' Lg' E E'.
    destruct (client_to_client m s p g m' s' p' g' l' r H C R Lg H' C' R' Lg' E) as (c & Ec & O). rewrite Ec. split; [discriminate|].
    unfold client_says in E'. rewrite Ec in E'. rewrite O in E'. apply (f_equal zlen) in E'. rewrite !zlen_app, hello_len in E' by (rewrite firstn_length; lia).
    pose proof (zlen_nonneg r'). destruct (hello_size <=? zlen (stream s)); unfold e_record in E'; [rewrite wire_len in E'|]; change (zlen [x02; x0a]) with 2 in E'; change (zlen (@nil byte)) with 0 in E'; lia. }
  intros m s p g l m' s' p' g' l' r r' H C R Lg H' C' R' Lg' E E'.
  destruct (Q m s p g l m' s' p' g' l' r r' H C R Lg H' C' R' Lg' E E') as (A & B). destruct (Q m' s' p' g' l' m s p g l r' r H' C' R' Lg' H C R Lg E' E) as (A' & B'). auto.
Qed.
(** a record a client has sealed, given to a client *)
Theorem own_record : forall m mm s g ss mm' s' g' ss' r k j t p rest, reached mm s g (Complete ss) -> reached mm' s' g' (Complete ss') ->
  keyed m r (k_server (s_keys ss)) (iv_server (s_keys ss)) k -> k + 1 < 2 ^ 64 -> zlen p <= 16384 ->
  stream (r_src r) = sealed_record (k_client (s_keys ss')) (iv_client (s_keys ss')) j t p ++ rest ->
  (exists r', read_record m r = (Err BadRecordMac, r') /\ keyed m r' (k_server (s_keys ss)) (iv_server (s_keys ss)) k /\ stream (r_src r') = rest) \/
  (exists q, two_seals (k_server (s_keys ss)) (iv_server (s_keys ss)) k (k_client (s_keys ss')) (iv_client (s_keys ss')) j t q p /\
     (k_client (s_keys ss') <> k_server (s_keys ss) \/
      blocks_meet ss' 1 ss 2 \/ hmac_meets (s_master ss') (block_seed ss') (s_master ss) (A_ (s_master ss) (block_seed ss) 1))).
Proof.
  intros m mm s g ss mm' s' g' ss' r k j t p rest Re Re' K Lk Lp S. unfold sealed_record, e_record in S.
  destruct (record_opens m r _ _ k t x03 x03 (aead_seal (k_client (s_keys ss')) (rfc_nonce (iv_client (s_keys ss')) j) (rfc_ad j t x03 x03 (zlen p)) p) rest K Lk ltac:(rewrite seal_len; lia) S) as (r' & Sr & _ & X).
  assert (Y : forall q, protects (k_server (s_keys ss)) (iv_server (s_keys ss)) k t x03 x03 q (aead_seal (k_client (s_keys ss')) (rfc_nonce (iv_client (s_keys ss')) j) (rfc_ad j t x03 x03 (zlen p)) p) ->
    exists q, two_seals (k_server (s_keys ss)) (iv_server (s_keys ss)) k (k_client (s_keys ss')) (iv_client (s_keys ss')) j t q p /\
     (k_client (s_keys ss') <> k_server (s_keys ss) \/
      blocks_meet ss' 1 ss 2 \/ hmac_meets (s_master ss') (block_seed ss') (s_master ss) (A_ (s_master ss) (block_seed ss) 1))).
  { intros q P. exists q. unfold protects in P. split.
    - split; [|symmetry; exact P]. apply (f_equal zlen) in P. rewrite !seal_len in P. lia.
    - destruct (list_eq_dec Byte.byte_eq_dec (k_client (s_keys ss')) (k_server (s_keys ss))) as [Ek|Nk]; [|left; exact Nk].
      right. exact (equal_crossed_keys mm' mm s' s g' g ss' ss Re' Re Ek). }
  destruct X as [(q & P & _)|[(q & P & _)|(_ & E & K')]]; [right; exact (Y q P)|right; exact (Y q P)|left; exists r'; auto].
Qed.
