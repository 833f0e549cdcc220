(** C110: where equal hash values come from. *)
From Verif Require Import Spec_Client2 Spec_Collide M_Sha2 M_Prf P_Util P_Client4 P_Collide P_Collide2 P_Collide3.
From Coq Require Import ZifyBool ZifyNat ZifyN.
Import String.StringSyntax.
Local Open Scope string_scope.
Local Open Scope list_scope.
Local Open Scope Z_scope.

(** ** C110 *)
(** two messages with one hash value: the steps of hashing them hold a collision of the compression function, and it is known where *)
Theorem C110_hash : forall m a b h, zlen a < 2 ^ 61 -> zlen b < 2 ^ 61 -> a <> b -> sha256 m a = Ok h -> sha256 m b = Ok h -> collides a b.
Proof. exact sha_collides. Qed.
Print Assumptions C110_hash.
(** two pairs of key and text with one HMAC: the same, in the inner or in the outer hashing *)
Theorem C110_hmac : forall m K a K' b t, (length K <= 64)%nat -> length K = length K' -> zlen a + 64 < 2 ^ 61 -> zlen b + 64 < 2 ^ 61 -> (K, a) <> (K', b) ->
  hmac_sha256 m K a = Ok t -> hmac_sha256 m K' b = Ok t -> collides (inner_text K a) (inner_text K' b) \/ collides (outer_text K a) (outer_text K' b).
Proof. exact hmac_collides. Qed.
Print Assumptions C110_hmac.
(** without equal lengths of the keys that fails: zeros at the end of a key make no difference *)
Theorem C110_hmac_keys_refuted : exists K K', K <> K' /\ (length K <= 64)%nat /\ (length K' <= 64)%nat /\
  forall m text, zlen text + 64 < 2 ^ 61 -> exists t, hmac_sha256 m K text = Ok t /\ hmac_sha256 m K' text = Ok t.
Proof. exact padded_key. Qed.
Print Assumptions C110_hmac_keys_refuted.
(** the sixty-four rounds are a permutation of the values, for every block: what is lost is lost in the last sum *)
Theorem C110_rounds : forall blk, (forall H H', eight_words H -> eight_words H' -> rounds blk H 64 = rounds blk H' 64 -> H = H') /\
  (forall R, eight_words R -> exists H, eight_words H /\ rounds blk H 64 = R).
Proof. exact rounds_bijective. Qed.
Print Assumptions C110_rounds.
(** any sixteen successive words of the schedule determine the block *)
Theorem C110_schedule : forall blk blk' k, length blk = 64%nat -> length blk' = 64%nat -> (k <= 48)%nat ->
  (forall t, (k <= t < k + 16)%nat -> W_ blk t = W_ blk' t) -> blk = blk'.
Proof. exact schedule_inj. Qed.
Print Assumptions C110_schedule.
(** a hash value and the length of the message give the hash value of an extension of the message *)
Theorem C110_extension : forall m a x h, zlen (fips_pad a ++ x) < 2 ^ 61 -> sha256 m a = Ok h ->
  sha256 m (fips_pad a ++ x) = Ok (extend_hash h (zlen (fips_pad a)) x).
Proof. exact extension. Qed.
Print Assumptions C110_extension.
(** the agreement of C59 with a collision of the compression function in the place of one of the hash function *)
Theorem C110_agreement : forall m s p g c, zlen (all_bytes s) + 1 < 2 ^ 64 -> client_new m s p g = (Ok tt, c) ->
  exists ss, reached m s g (Complete ss) /\ forall ms T, Forall wf_handshake T -> zlen (transcript_bytes T) < 2 ^ 61 ->
    let T0 := s_msgs ss ++ [s_client_fin ss] in let v := verify_data ms "server finished" T in
    (ms = s_master ss /\ T = T0) \/
    forged_first s (k_server (s_keys ss)) (iv_server (s_keys ss)) (e_handshake (finished v)) \/
    spliced (e_handshake (s_server_fin ss)) (e_handshake (finished v)) \/
    collides (transcript_bytes T) (transcript_bytes T0) \/
    finished_collision "server finished" ms (SHA256 (transcript_bytes T)) (s_master ss) (SHA256 (transcript_bytes T0)).
Proof. exact agreement_blocks. Qed.
Print Assumptions C110_agreement.
(** [collides] is no empty word: it does not hold of a message and itself; a step has a block of 64 bytes *)
Example ex_same : forall a, ~ collides a a.
Proof. exact same_no_collision. Qed.
Example ex_step : sha_blocks [x61] = 1%nat /\ length (fst (sha_step [x61] 0)) = 64%nat /\ snd (sha_step [x61] 0) = H0.
Proof. split; [vm_compute; reflexivity|]. split; [vm_compute; reflexivity|reflexivity]. Qed.
Example ex_extension : forall m, exists h, sha256 m [x61] = Ok h /\ sha256 m (fips_pad [x61] ++ [x62]) = Ok (extend_hash h 64 [x62]).
Proof. intros m. exists (SHA256 [x61]). split; [apply P_Sha2.sha256_spec; reflexivity|]. apply (extension m [x61] [x62]); [vm_compute; reflexivity|apply P_Sha2.sha256_spec; reflexivity]. Qed.
