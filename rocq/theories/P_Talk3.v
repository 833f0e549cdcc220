(** Conversations (C78): every conversation ends, and there is only one end. *)
From Verif Require Import Spec_Talk P_Util P_Codec P_RecordW P_RecordR P_Record P_Record2 P_Aead P_Ecdhe P_Halt P_Client P_Client2 P_Client5 P_App P_App2 P_App3 P_Talk P_Talk2.
From Coq Require Import ZifyBool ZifyNat ZifyN.
Local Open Scope list_scope.
#[local] Opaque aead_seal aead_decrypt aead_encrypt compute_keys SHA256 HMAC PRF.

Lemma record_length t f : length (e_record t f) = (5 + length f)%nat.
Proof. unfold e_record, wire, sp_vec. repeat (rewrite ?app_length, ?be_length; cbn [length]). lia. Qed.
Lemma sealed_length key iv k t f : length (sealed_record key iv k t f) = (21 + length f)%nat.
Proof. unfold sealed_record. rewrite record_length, aead_seal_length. lia. Qed.
Lemma message_length h : length (e_handshake h) = (4 + length (e_hs_body h))%nat.
Proof. unfold e_handshake, sp_vec. rewrite !app_length, be_length. cbn [length]. lia. Qed.
Lemma hello_length cr : length cr = 32%nat -> length (flight_hello cr) = 74%nat.
Proof.
  intros L. unfold flight_hello. rewrite record_length, message_length.
  cbn [e_hs_body offer]. unfold e_client_hello. cbn. unfold sp_vec. repeat (rewrite ?app_length, ?be_length; cbn [length]). rewrite L. reflexivity.
Qed.
Lemma stage_length m s g st : reached m s g st -> (length (stage_out st) <= 300)%nat.
Proof.
  destruct st as [|cr|ss]; cbn [reached stage_out]; intros H.
  - cbn. lia.
  - destruct H as (L & ->). rewrite hello_length; [lia|]. rewrite firstn_length. lia.
  - destruct H as (L & Ecr & _ & _ & _ & _ & g' & K). destruct (keys_lengths _ _ _ _ _ _ K) as (_ & L66 & _).
    unfold flight_exchange, flight_finished. rewrite !app_length, hello_length by (rewrite Ecr, firstn_length; lia).
    rewrite sealed_length, !record_length, !message_length. cbn [e_hs_body s_client_fin]. unfold verify_data. rewrite PRF_length, L66. cbn [length]. lia.
Qed.
Lemma alert_length st k : (length (alert_out st k) <= 30)%nat.
Proof. destruct st; cbn [alert_out]; rewrite ?sealed_length, ?record_length; cbn [length]; lia. Qed.
Lemma new_bound m p g s c : client_new m s p g = (Err IoFailure, c) -> (length (c_out c) <= 330)%nat.
Proof.
  intros E. apply emissions in E as (st & R & H). pose proof (stage_length _ _ _ _ R) as L. unfold c_out.
  destruct H as [(-> & _)|[(k & _ & ->)|[(_ & _ & u & U)|(k & sent & _ & -> & _ & u & U)]]].
  - lia.
  - pose proof (alert_length st k). rewrite app_length. lia.
  - rewrite U, app_length in L. lia.
  - pose proof (alert_length st k) as A. rewrite U, app_length in A. rewrite app_length. lia.
Qed.
Lemma conversation_ends m q p g srv : causal_server srv ->
  exists S, conversation srv (sent_after m q p g) S /\ settled srv (sent_after m q p g) S /\
    forall r, conversation srv (sent_after m q p g) r -> exists x, S = r ++ x /\
      (x <> [] -> exists y t, y <> [] /\ srv (sent_after m q p g r) = r ++ y ++ t).
Proof.
  intros CS. destruct (settle_new m q p g srv CS 330 (new_bound m p g) 331 [] (Cv_start _ _)) as (S & C & F); [lia|].
  exists S. split; [exact C|]. split; [exact F|]. intros r Cr. destruct (conv_below m q p g srv CS S r F Cr) as (x & E).
  exists x. split; [exact E|]. intros N. destruct (conv_prefix m q p g srv CS r Cr) as ([|z t] & P).
  - exfalso. rewrite app_nil_r in P. destruct (conv_below m q p g srv CS r S P C) as (y & Ey). rewrite E, <- app_assoc in Ey.
    rewrite <- (app_nil_r r) in Ey at 1. apply app_inv_head in Ey. symmetry in Ey. apply app_eq_nil in Ey as (-> & _). congruence.
  - exists (z :: t), []. split; [discriminate|]. rewrite app_nil_r. exact P.
Qed.
(** what happened at the end decides everything that was observed on the way *)
Lemma conversation_outcome m q p g srv S r : causal_server srv -> settled srv (sent_after m q p g) S ->
  conversation srv (sent_after m q p g) r ->
  (exists u, sent_after m q p g S = sent_after m q p g r ++ u) /\
  (state_after m q p g r <> Waiting -> state_after m q p g S = state_after m q p g r).
Proof.
  intros CS F C. destruct (conv_below m q p g srv CS S r F C) as (x & ->). split; [apply sent_grows|].
  intros N. apply (state_final m q p g r x N).
Qed.
