(** Specification vocabulary for C112: where equal keys come from. *)
From Verif Require Export Spec_Client Spec_Collide.
Import String.StringSyntax.
Local Open Scope string_scope.
Local Open Scope list_scope.

(** computing the HMAC of [a] under [K] and of [b] under [K'] meets a collision of the compression function *)
Definition hmac_meets (K a K' b : bytes) : Prop := collides (inner_text K a) (inner_text K' b) \/ collides (outer_text K a) (outer_text K' b).
(** the text whose HMAC is the [i]-th block of P_SHA256(secret, seed), RFC 5246 section 5 *)
Definition prf_text (secret seed : bytes) (i : nat) : bytes := A_ secret seed i ++ seed.
(** the seeds of the master secret and of the key block of a handshake, RFC 5246 8.1 and 6.3 *)
Definition master_seed (s : session) : bytes := ascii "master secret" ++ s_cr s ++ sh_random (s_sh s).
Definition block_seed (s : session) : bytes := ascii "key expansion" ++ sh_random (s_sh s) ++ s_cr s.
(** the two handshakes have the secret of the exchange and both randoms in common *)
Definition same_origin (s t : session) : Prop := s_pms s = s_pms t /\ s_cr s = s_cr t /\ sh_random (s_sh s) = sh_random (s_sh t).
(** a collision met in computing the two master secrets; in computing block [i] of one key block and block [j] of the other *)
Definition masters_meet (s t : session) : Prop :=
  hmac_meets (s_pms s) (prf_text (s_pms s) (master_seed s) 1) (s_pms t) (prf_text (s_pms t) (master_seed t) 1).
Definition blocks_meet (s : session) (i : nat) (t : session) (j : nat) : Prop :=
  hmac_meets (s_master s) (prf_text (s_master s) (block_seed s) i) (s_master t) (prf_text (s_master t) (block_seed t) j).
