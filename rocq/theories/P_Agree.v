(** Proofs about src/client.rs: a completed handshake and the server's view of it. *)
From Verif Require Import Spec_Client2 P_Util P_Codec P_CodecProps P_RecordW P_RecordR P_Record P_Record2 P_Aead P_Ecdhe P_Client P_Client2 P_Panic P_Client3 P_Client4 P_Client5 P_Pending.
From Coq Require Import ZifyBool ZifyNat ZifyN.
Import String.StringSyntax.
Local Open Scope string_scope.
Local Open Scope list_scope.
Local Open Scope Z_scope.
#[local] Opaque SHA256 HMAC aead_seal aead_decrypt aead_encrypt compute_keys PRF nmul.

(** handshake messages can be told apart in a concatenation *)
Lemma transcript_inj : forall T1 T2, Forall wf_handshake T1 -> Forall wf_handshake T2 -> transcript_bytes T1 = transcript_bytes T2 -> T1 = T2.
Proof.
  unfold transcript_bytes. induction T1 as [|h T1 IH]; intros [|h2 T2] W1 W2 E; [reflexivity| | |].
  - exfalso. apply (f_equal (@length byte)) in E. cbn [map concat] in E. rewrite app_length in E. unfold e_handshake in E. cbn in E. lia.
  - exfalso. apply (f_equal (@length byte)) in E. cbn [map concat] in E. rewrite app_length in E. unfold e_handshake in E. cbn in E. lia.
  - inversion W1; subst. inversion W2; subst. cbn [map concat] in E.
    pose proof (get_message_enc h (concat (map e_handshake T1)) ltac:(assumption)) as G1.
    pose proof (get_message_enc h2 (concat (map e_handshake T2)) ltac:(assumption)) as G2.
    rewrite E, G2 in G1. apply pair_equal_spec in G1 as [X Y]. apply Ok_inj in X. injection X as ->. f_equal. apply IH; auto.
Qed.
Theorem transcripts_agree l ms1 T1 ms2 T2 : Forall wf_handshake T1 -> Forall wf_handshake T2 ->
  verify_data ms1 l T1 = verify_data ms2 l T2 ->
  (ms1 = ms2 /\ T1 = T2) \/ hash_collision (transcript_bytes T1) (transcript_bytes T2) \/
  finished_collision l ms1 (SHA256 (transcript_bytes T1)) ms2 (SHA256 (transcript_bytes T2)).
Proof.
  intros W1 W2 E. unfold verify_data in E. fold (transcript_bytes T1) in E. fold (transcript_bytes T2) in E.
  destruct (list_eq_dec Byte.byte_eq_dec ms1 ms2) as [<-|N1].
  - destruct (list_eq_dec Byte.byte_eq_dec (transcript_bytes T1) (transcript_bytes T2)) as [X|N].
    + left. split; [reflexivity|]. apply transcript_inj; assumption.
    + destruct (list_eq_dec Byte.byte_eq_dec (SHA256 (transcript_bytes T1)) (SHA256 (transcript_bytes T2))) as [H|H].
      * right. left. split; assumption.
      * right. right. split; [congruence|exact E].
  - right. right. split; [congruence|exact E].
Qed.

Lemma fin_bytes v : length v = 12%nat -> e_handshake (finished v) = [x14; x00; x00; x0c] ++ v.
Proof. intros L. unfold e_handshake. cbn [hs_type e_hs_body]. unfold sp_vec, zlen. rewrite L. reflexivity. Qed.
(** the client's Finished and the one the server sealed first *)
Theorem finished_agrees m s p g c : zlen (all_bytes s) + 1 < 2 ^ 64 -> client_new m s p g = (Ok tt, c) ->
  exists ss, reached m s g (Complete ss) /\ forall v, length v = 12%nat ->
    v = expected_server ss \/ forged_first s (k_server (s_keys ss)) (iv_server (s_keys ss)) (e_handshake (finished v)) \/
    spliced (e_handshake (s_server_fin ss)) (e_handshake (finished v)).
Proof.
  intros Room E. destruct (finished_ledger _ _ _ _ _ Room E) as (ss & before & clear & fs & bs & RC & SR & Ab & (L1 & L2) & Kd).
  exists ss. split; [exact RC|]. intros v Lv. rewrite fin_shape in *. rewrite (fin_bytes v Lv).
  set (e := [x14; x00; x00; x0c] ++ expected_server ss) in *. set (q := [x14; x00; x00; x0c] ++ v) in *.
  assert (Le : length e = 16%nat) by (unfold e; rewrite app_length; unfold expected_server; rewrite verify_data_length; reflexivity).
  assert (Lq : length q = 16%nat) by (unfold q; rewrite app_length, Lv; reflexivity).
  inversion SR as [k H1 H2 H3|k f maj min fs' bs' SR' H1 H2 H3]; subst.
  - exfalso. cbn [concat] in L1. rewrite app_nil_r in L1. subst clear. rewrite app_length in L2. lia.
  - destruct (list_eq_dec Byte.byte_eq_dec f q) as [->|N].
    + cbn [concat] in L1. rewrite app_assoc in L1.
      assert (Ee : e = firstn 16 (clear ++ q)).
      { transitivity (firstn 16 ((clear ++ q) ++ concat fs')).
        - rewrite L1. rewrite firstn_app, <- Le, firstn_all, Nat.sub_diag, firstn_O, app_nil_r. reflexivity.
        - rewrite (firstn_app 16 (clear ++ q)). replace (16 - length (clear ++ q))%nat with 0%nat by (rewrite app_length; lia).
          rewrite firstn_O, app_nil_r. reflexivity. }
      rewrite firstn_app, (firstn_all2 clear) in Ee by lia.
      destruct clear as [|c0 clear].
      * left. cbn [app length] in Ee. rewrite Nat.sub_0_r, <- Lq, firstn_all in Ee. unfold e, q in Ee. apply app_inv_head in Ee. auto.
      * right. right. exists (length (c0 :: clear)). split.
        { split; [|exact L2]. destruct (Nat.le_gt_cases 4 (length (c0 :: clear))) as [G|G]; [exact G|exfalso].
          cbn [length] in G, Ee. unfold e, q in Ee. clear - Ee G.
          destruct clear as [|c1 [|c2 [|c3 clear]]]; cbn in Ee; [discriminate Ee|discriminate Ee|discriminate Ee|cbn in G; lia]. }
        rewrite Ee at 2. rewrite firstn_app, firstn_all, Nat.sub_diag, firstn_O, app_nil_r. exact Ee.
    + right. left. exists HandshakeTy, f. split; [|congruence].
      exists before, (bs' ++ all_bytes (r_src (c_reader c))), maj, min. rewrite Ab, <- app_assoc. reflexivity.
Qed.
(** so the two sides agree on every message of the handshake *)
Theorem agreement m s p g c : zlen (all_bytes s) + 1 < 2 ^ 64 -> client_new m s p g = (Ok tt, c) ->
  exists ss, reached m s g (Complete ss) /\ forall ms T, Forall wf_handshake T ->
    let T0 := s_msgs ss ++ [s_client_fin ss] in let v := verify_data ms "server finished" T in
    (ms = s_master ss /\ T = T0) \/
    forged_first s (k_server (s_keys ss)) (iv_server (s_keys ss)) (e_handshake (finished v)) \/
    spliced (e_handshake (s_server_fin ss)) (e_handshake (finished v)) \/
    hash_collision (transcript_bytes T) (transcript_bytes T0) \/
    finished_collision "server finished" ms (SHA256 (transcript_bytes T)) (s_master ss) (SHA256 (transcript_bytes T0)).
Proof.
  intros Room E. destruct (finished_agrees _ _ _ _ _ Room E) as (ss & RC & H). exists ss. split; [exact RC|].
  intros ms T W T0 v. destruct (H v) as [A|[A|A]]; [apply verify_data_length| |auto|auto].
  assert (W0 : Forall wf_handshake T0).
  { apply session_good in RC as (_ & _ & _ & _ & Wm). apply Forall_app. split; [exact Wm|]. constructor; [|constructor]. apply fin_wf. }
  destruct (transcripts_agree _ _ _ _ _ W W0 A) as [B|[B|B]]; auto 6.
Qed.
