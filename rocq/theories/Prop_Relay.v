(** C88: the service alone decides what the application gets, and a relay offers the same service. *)
From Verif Require Import Spec_Relay P_Util P_Codec P_Client3 P_Client4 P_Talk P_Talk2 P_Talk3 P_Talk4 P_Talk5 P_Server P_Relay.
From Coq Require Import ZifyBool ZifyNat ZifyN.
Local Open Scope list_scope.
Local Open Scope Z_scope.

(** two clients of any build with any randomness, two servers with any certificates, signatures, keys and records: with the same
    service, the same end for the application *)
Theorem C88_service_decides : forall m m' q p p' g g' sv sv' service srv srv' S S', able p g -> able p' g' -> wf_server sv -> wf_server sv' ->
  causal_service service -> tls_server sv service srv -> tls_server sv' service srv' -> (forall d, 1 + zlen (said q d) < 2 ^ 64) ->
  final m q p g srv S -> final m' q p' g' srv' S' -> state_after m q p g S = state_after m' q p' g' S'.
Proof. exact service_decides. Qed.
Print Assumptions C88_service_decides.
Example ex_able : able [] one_tape.
Proof. exact one_able. Qed.
Example ex_other_server : wf_server plain_server /\ wf_server copied /\ sv_certs plain_server <> sv_certs copied /\ sv_secret plain_server <> sv_secret copied.
Proof. split; [exact plain_wf|]. split; [exact copied_wf|]. split; discriminate. Qed.

(** whoever says [w] to the server and asks for [n] bytes gets the first [n] bytes of its answer, or waits *)
Theorem C88_answered : forall m p g sv service srv w n S, able p g -> wf_server sv -> causal_service service -> tls_server sv service srv -> 1 + zlen w < 2 ^ 64 ->
  final m (speak w n) p g srv S ->
  state_after m (speak w n) p g S = if (n <=? length (service w))%nat then Ended (uttered w ++ [Got (Ok (firstn n (service w)))]) else Waiting.
Proof. exact answered. Qed.
Print Assumptions C88_answered.
(** so the answer to [w] can be learned by talking, and nothing else can *)
Theorem C88_learned : forall sv service srv w d, wf_server sv -> causal_service service -> tls_server sv service srv -> 1 + zlen w < 2 ^ 64 ->
  (exists p g, able p g) -> (learned srv w d <-> d = service w).
Proof. exact learned_iff. Qed.
Print Assumptions C88_learned.
Example ex_learned : learned (serve plain_server echo) [Some x61; None; Some x62] [x61; x62].
Proof. exact (echo_learned [Some x61; None; Some x62] eq_refl). Qed.

(** a relay: from what it learned by talking to the server, and with parameters [sv'] of its own, say a copy of the server's
    certificates, it makes a server with which every application ends as with the original; it shares the keys with the client,
    hears all the application says and sends all it reads *)
Theorem C88_relay : forall sv service srv sv' heard, wf_server sv -> causal_service service -> tls_server sv service srv ->
  wf_server sv' -> causal_service heard -> (forall w, 16 + zlen (heard w) < 2 ^ 64) -> (forall w, 1 + zlen w < 2 ^ 64 -> learned srv w (heard w)) ->
  exists srv', tls_server sv' heard srv' /\
    forall m q p g, able p g -> (forall d, 1 + zlen (said q d) < 2 ^ 64) ->
      exists S S', final m q p g srv S /\ final m q p g srv' S' /\ state_after m q p g S' = state_after m q p g S /\
        exists r C ss fs1 fs2 fs it, private_point g C /\ agreed sv' (firstn 32 g) C ss /\
          concat fs = r /\ S' = served ss fs1 fs2 ++ sealed_stream (k_server (s_keys ss)) (iv_server (s_keys ss)) (zlen fs2) ApplicationDataTy fs /\
          says it = said q r /\ sent_after m q p g S' = stage_out (Complete ss) ++ sealed_items (k_client (s_keys ss)) (iv_client (s_keys ss)) 1 it /\
          state_after m q p g S = plain_state q r.
Proof. exact relay. Qed.
Print Assumptions C88_relay.
(** a relay in front of the echo server, with another secret and a signature of one zero byte *)
Example ex_relayed : forall m, exists srv', tls_server copied echo srv' /\ exists S, final m (ping 2) [] one_tape srv' S /\
  state_after m (ping 2) [] one_tape S = Ended [Wrote (Ok 2); Got (Ok [x61; x62]); Closed (Ok tt)].
Proof. exact relayed_ping. Qed.
