(** C110: the transcripts of a handshake. *)
From Verif Require Import Spec_Client2 Spec_Collide P_Util P_Codec P_Client P_Client2 P_Client3 P_Client4 P_Client5 P_Agree P_Sha2 P_Collide.
From Coq Require Import ZifyBool ZifyNat ZifyN.
Import String.StringSyntax.
Local Open Scope string_scope.
Local Open Scope list_scope.
Local Open Scope Z_scope.
#[local] Opaque SHA256 HMAC aead_seal aead_decrypt aead_encrypt compute_keys PRF nmul.

Lemma transcript_bound T : Forall wf_handshake T -> zlen (transcript_bytes T) <= Z.of_nat (length T) * (2 ^ 24 + 4).
Proof.
  unfold transcript_bytes. induction 1 as [|h T [_ W] _ IH]; [reflexivity|]. cbn [map concat length]. rewrite zlen_app, e_handshake_len, Nat2Z.inj_succ. lia.
Qed.
(** agreement, with a collision of the compression function in the place of one of the hash function *)
Theorem agreement_blocks m s p g c : zlen (all_bytes s) + 1 < 2 ^ 64 -> client_new m s p g = (Ok tt, c) ->
  exists ss, reached m s g (Complete ss) /\ forall ms T, Forall wf_handshake T -> zlen (transcript_bytes T) < 2 ^ 61 ->
    let T0 := s_msgs ss ++ [s_client_fin ss] in let v := verify_data ms "server finished" T in
    (ms = s_master ss /\ T = T0) \/
    forged_first s (k_server (s_keys ss)) (iv_server (s_keys ss)) (e_handshake (finished v)) \/
    spliced (e_handshake (s_server_fin ss)) (e_handshake (finished v)) \/
    collides (transcript_bytes T) (transcript_bytes T0) \/
    finished_collision "server finished" ms (SHA256 (transcript_bytes T)) (s_master ss) (SHA256 (transcript_bytes T0)).
Proof.
  intros Room E. destruct (agreement _ _ _ _ _ Room E) as (ss & RC & H). exists ss. split; [exact RC|]. intros ms T W L T0 v.
  destruct (H ms T W) as [A|[A|[A|[[N A]|A]]]]; auto 6. do 3 right. left. apply hash_collides; [exact L| |exact N|exact A].
  assert (W0 : Forall wf_handshake T0).
  { apply session_good in RC as (_ & _ & _ & _ & Wm). apply Forall_app. split; [exact Wm|]. constructor; [|constructor]. apply fin_wf. }
  pose proof (transcript_bound T0 W0) as B. assert (X : (length T0 <= 10)%nat) by (unfold T0, s_msgs; cbn [app length]; lia). lia.
Qed.
