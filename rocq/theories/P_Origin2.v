(** Proofs for C112: what the keys are not bound to. *)
From Verif Require Export P_Origin P_Client4.
From Coq Require Import ZifyBool ZifyNat ZifyN.
Local Open Scope list_scope.
Local Open Scope Z_scope.
#[local] Opaque SHA256 HMAC PRF nmul.

Lemma origin_keys s t : same_origin s t -> s_master s = s_master t /\ s_keys s = s_keys t.
Proof. intros (E1 & E2 & E3). unfold s_keys, s_master. rewrite E1, E2, E3. auto. Qed.
(** servers with one secret and one random: the rest of their messages does not enter the keys *)
Theorem unbound : forall sv sv' cr C ss ss', sv_random sv = sv_random sv' -> sv_secret sv = sv_secret sv' -> agreed sv cr C ss -> agreed sv' cr C ss' -> same_origin ss ss'.
Proof.
  intros sv sv' cr C ss ss' E1 E2 (sx & sy & cx & cy & zx & zy & _ & A2 & A3 & ->) (sx' & sy' & cx' & cy' & zx' & zy' & _ & B2 & B3 & ->).
  rewrite <- E2, A3 in B3. injection B3 as <- <-. split; [reflexivity|]. split; [reflexivity|exact E1].
Qed.
Definition other_server : server := Server (repeat x00 32) [] None [[x01]] secp256r1 1 (DigSigned (SigHash H_sha256 S_rsa) [x02]).
Lemma other_wf : wf_server other_server.
Proof.
  split; [split; [split; [reflexivity|split; [discriminate|exact I]]|discriminate]|]. split; [split; [split; [constructor; [split; discriminate|constructor]|discriminate]|reflexivity]|].
  split; [split; reflexivity|split; discriminate].
Qed.
Theorem same_keys_other_messages : exists m s s' g c c' ss ss', client_new m s [] g = (Ok tt, c) /\ client_new m s' [] g = (Ok tt, c') /\
  reached m s g (Complete ss) /\ reached m s' g (Complete ss') /\
  keyed_w m (c_writer c) (k_client (s_keys ss)) (iv_client (s_keys ss)) 1 /\ keyed_w m (c_writer c') (k_client (s_keys ss')) (iv_client (s_keys ss')) 1 /\
  s_keys ss = s_keys ss' /\ s_certs ss <> s_certs ss' /\ s_ske ss <> s_ske ss'.
Proof.
  destruct (conforming_run Release plain_server (fun _ => []) plain_wf) as (s & ss & c & _ & A & E & R & _ & K & _).
  destruct (conforming_run Release other_server (fun _ => []) other_wf) as (s' & ss' & c' & _ & A' & E' & R' & _ & K' & _).
  exists Release, s, s', one_tape, c, c', ss, ss'. split; [exact E|]. split; [exact E'|]. split; [exact R|]. split; [exact R'|]. split; [exact K|]. split; [exact K'|].
  split; [apply origin_keys; exact (unbound plain_server other_server _ _ _ _ eq_refl eq_refl A A')|].
  destruct A as (sx & sy & cx & cy & zx & zy & A1 & _ & _ & ->). destruct A' as (sx' & sy' & cx' & cy' & zx' & zy' & B1 & _ & _ & ->). cbn [s_certs s_ske].
  split; [discriminate|]. cbn [sv_secret sv_curve sv_sig plain_server other_server] in *.
  rewrite A1 in B1. injection B1 as <- <-. intros X. apply (f_equal (@length _)) in X. unfold e_ske, Spec_Wire.sp_vec in X. cbn in X.
  rewrite ?app_length in X. cbn in X. lia.
Qed.
