(** C88: the service decides what the application gets; a relay. *)
From Verif Require Import Spec_Relay P_Util P_Codec P_Client3 P_Client4 P_Talk P_Talk2 P_Talk3 P_Talk4 P_Talk5 P_Server.
From Coq Require Import ZifyBool ZifyNat ZifyN.
Local Open Scope list_scope.
Local Open Scope Z_scope.

Lemma pipe m q p g sv service srv S : able p g -> wf_server sv -> causal_service service -> tls_server sv service srv ->
  (forall d, 1 + zlen (said q d) < 2 ^ 64) -> final m q p g srv S ->
  exists r, plain_talk service q r /\ service (said q r) = r /\ state_after m q p g S = plain_state q r /\
    exists C ss fs1 fs2 fs it, private_point g C /\ agreed sv (firstn 32 g) C ss /\
      concat fs = r /\ S = served ss fs1 fs2 ++ sealed_stream (k_server (s_keys ss)) (iv_server (s_keys ss)) (zlen fs2) ApplicationDataTy fs /\
      says it = said q r /\
      sent_after m q p g S = stage_out (Complete ss) ++ sealed_items (k_client (s_keys ss)) (iv_client (s_keys ss)) 1 it.
Proof.
  intros (H & L & j & J & U) W CS T B (Cv & St).
  destruct (tls_pipe m q p g j sv service srv W H L J U CS T B) as (S0 & r & _ & _ & Uq & P & E & _ & Ps & ss & fs1 & fs2 & fs & it & A & R).
  rewrite <- (Uq S Cv St) in *. exists r. split; [exact P|]. split; [exact E|]. split; [exact Ps|].
  exists (nmul (Z.to_nat (used_scalar (draw (skipn 32 g) j))) Gpt), ss, fs1, fs2, fs, it. split; [exists j; split; [exact J|reflexivity]|]. split; [exact A|exact R].
Qed.
Lemma reaches m q p g sv service srv : able p g -> wf_server sv -> causal_service service -> tls_server sv service srv ->
  (forall d, 1 + zlen (said q d) < 2 ^ 64) -> exists S, final m q p g srv S.
Proof.
  intros (H & L & j & J & U) W CS T B.
  destruct (tls_pipe m q p g j sv service srv W H L J U CS T B) as (S0 & _ & C & St & _). exists S0. split; assumption.
Qed.

(** two services that agree on what this application says *)
Lemma talk_ext s1 s2 q r : (forall d, s1 (said q d) = s2 (said q d)) -> plain_talk s1 q r -> plain_talk s2 q r.
Proof. intros E P. induction P as [|r x t P IH H]; [constructor|]. apply (Pt_more _ _ r x t IH). rewrite <- E. exact H. Qed.
Lemma end_unique service q r1 r2 : causal_service service -> plain_talk service q r1 -> service (said q r1) = r1 ->
  plain_talk service q r2 -> service (said q r2) = r2 -> r1 = r2.
Proof. intros CS P1 E1 P2 E2. apply prefixes_equal; [exact (plain_below service q CS r1 E1 r2 P2)|exact (plain_below service q CS r2 E2 r1 P1)]. Qed.

Theorem service_decides m m' q p p' g g' sv sv' service srv srv' S S' : able p g -> able p' g' -> wf_server sv -> wf_server sv' ->
  causal_service service -> tls_server sv service srv -> tls_server sv' service srv' -> (forall d, 1 + zlen (said q d) < 2 ^ 64) ->
  final m q p g srv S -> final m' q p' g' srv' S' -> state_after m q p g S = state_after m' q p' g' S'.
Proof.
  intros U U' W W' CS T T' B F F'.
  destruct (pipe m q p g sv service srv S U W CS T B F) as (r & P & E & St & _).
  destruct (pipe m' q p' g' sv' service srv' S' U' W' CS T' B F') as (r' & P' & E' & St' & _).
  rewrite St, St', (end_unique service q r r' CS P E P' E'). reflexivity.
Qed.

(** ** Asking the server *)
Lemma plain_speak n d : forall w, plain (speak w n) d =
  (if (n <=? length d)%nat then Some (uttered w ++ [Got (Ok (firstn n d))]) else None, w).
Proof.
  induction w as [|[b|] w IH]; cbn [speak plain].
  - destruct (n <=? length d)%nat; reflexivity.
  - rewrite IH. destruct (n <=? length d)%nat; reflexivity.
  - rewrite IH. destruct (n <=? length d)%nat; reflexivity.
Qed.
Lemma said_speak w n d : said (speak w n) d = w. Proof. unfold said. rewrite plain_speak. reflexivity. Qed.
Theorem answered m p g sv service srv w n S : able p g -> wf_server sv -> causal_service service -> tls_server sv service srv -> 1 + zlen w < 2 ^ 64 ->
  final m (speak w n) p g srv S ->
  state_after m (speak w n) p g S = if (n <=? length (service w))%nat then Ended (uttered w ++ [Got (Ok (firstn n (service w)))]) else Waiting.
Proof.
  intros U W CS T B F. assert (B' : forall d, 1 + zlen (said (speak w n) d) < 2 ^ 64) by (intros d; rewrite said_speak; exact B).
  destruct (pipe m (speak w n) p g sv service srv S U W CS T B' F) as (r & P & E & St & _).
  rewrite said_speak in E. subst r. rewrite St. unfold plain_state. rewrite plain_speak. destruct (n <=? length (service w))%nat; reflexivity.
Qed.
Lemma uttered_inj w a b : Ended (uttered w ++ [Got (Ok a)]) = Ended (uttered w ++ [Got (Ok b)]) -> a = b.
Proof. intros H. injection H as H. apply app_inv_head in H. congruence. Qed.
Theorem learning sv service srv w d : wf_server sv -> causal_service service -> tls_server sv service srv -> 1 + zlen w < 2 ^ 64 ->
  learned srv w d -> d = service w.
Proof.
  intros W CS T B (m & p & g & S & S' & U & F & St & F' & St').
  rewrite (answered m p g sv service srv w _ S U W CS T B F) in St. rewrite (answered m p g sv service srv w _ S' U W CS T B F') in St'.
  destruct (Nat.leb_spec (length d) (length (service w))) as [L|L]; [|discriminate St].
  destruct (Nat.leb_spec (Datatypes.S (length d)) (length (service w))) as [L'|L']; [discriminate St'|].
  apply uttered_inj in St. rewrite <- St. apply firstn_all2. lia.
Qed.
Theorem learnable sv service srv w p g : wf_server sv -> causal_service service -> tls_server sv service srv -> 1 + zlen w < 2 ^ 64 ->
  able p g -> learned srv w (service w).
Proof.
  intros W CS T B U.
  assert (B' : forall n d, 1 + zlen (said (speak w n) d) < 2 ^ 64) by (intros n d; rewrite said_speak; exact B).
  destruct (reaches Release (speak w (length (service w))) p g sv service srv U W CS T (B' _)) as (S & F).
  destruct (reaches Release (speak w (Datatypes.S (length (service w)))) p g sv service srv U W CS T (B' _)) as (S' & F').
  exists Release, p, g, S, S'. split; [exact U|]. split; [exact F|].
  rewrite (answered Release p g sv service srv w _ S U W CS T B F), (answered Release p g sv service srv w _ S' U W CS T B F').
  rewrite Nat.leb_refl, firstn_all. split; [reflexivity|]. split; [exact F'|].
  destruct (Nat.leb_spec (Datatypes.S (length (service w))) (length (service w))) as [L|L]; [lia|reflexivity].
Qed.

Theorem learned_iff sv service srv w d : wf_server sv -> causal_service service -> tls_server sv service srv -> 1 + zlen w < 2 ^ 64 ->
  (exists p g, able p g) -> (learned srv w d <-> d = service w).
Proof.
  intros W CS T B (p & g & U). split; [exact (learning sv service srv w d W CS T B)|]. intros ->. exact (learnable sv service srv w p g W CS T B U).
Qed.

(** ** The relay: a server with any parameters of its own that answers what it learned *)
Theorem relay sv service srv sv' heard : wf_server sv -> causal_service service -> tls_server sv service srv ->
  wf_server sv' -> causal_service heard -> (forall w, 16 + zlen (heard w) < 2 ^ 64) -> (forall w, 1 + zlen w < 2 ^ 64 -> learned srv w (heard w)) ->
  exists srv', tls_server sv' heard srv' /\
    forall m q p g, able p g -> (forall d, 1 + zlen (said q d) < 2 ^ 64) ->
      exists S S', final m q p g srv S /\ final m q p g srv' S' /\ state_after m q p g S' = state_after m q p g S /\
        exists r C ss fs1 fs2 fs it, private_point g C /\ agreed sv' (firstn 32 g) C ss /\
          concat fs = r /\ S' = served ss fs1 fs2 ++ sealed_stream (k_server (s_keys ss)) (iv_server (s_keys ss)) (zlen fs2) ApplicationDataTy fs /\
          says it = said q r /\ sent_after m q p g S' = stage_out (Complete ss) ++ sealed_items (k_client (s_keys ss)) (iv_client (s_keys ss)) 1 it /\
          state_after m q p g S = plain_state q r.
Proof.
  intros W CS T W' CH BH LH. exists (serve sv' heard). pose proof (serve_tls sv' heard CH BH) as T'. split; [exact T'|].
  intros m q p g U B.
  destruct (reaches m q p g sv service srv U W CS T B) as (S & F). destruct (reaches m q p g sv' heard _ U W' CH T' B) as (S' & F').
  exists S, S'. split; [exact F|]. split; [exact F'|].
  destruct (pipe m q p g sv service srv S U W CS T B F) as (r & P & E & St & _).
  destruct (pipe m q p g sv' heard _ S' U W' CH T' B F') as (r' & P' & E' & St' & C & ss & fs1 & fs2 & fs & it & A1 & A2 & A3 & A4 & A5 & A6).
  assert (X : forall d, heard (said q d) = service (said q d)) by (intros d; exact (learning sv service srv _ _ W CS T (B d) (LH _ (B d)))).
  assert (Er : r = r') by (apply (end_unique service q r r' CS P E (talk_ext _ _ q r' X P')); rewrite <- X; exact E').
  rewrite <- Er in St', A3, A5. split; [rewrite St, St'; reflexivity|]. exists r, C, ss, fs1, fs2, fs, it. repeat (split; [assumption|]). exact St.
Qed.

(** example: the echo service behind two servers, one of which has the certificate and the other only a copy *)
Definition copied : server := Server (repeat x01 32) [x07] None [[x30]] secp256r1 2 (DigSigned (SigHash H_sha256 S_rsa) [x00]).
Lemma copied_wf : wf_server copied.
Proof.
  split; [split; [split; [reflexivity|split; [discriminate|exact I]]|discriminate]|]. split; [split; [split; [repeat constructor; discriminate|discriminate]|reflexivity]|].
  split; [split; reflexivity|split; discriminate].
Qed.
Lemma one_able : able [] one_tape.
Proof. split; [exact (Forall_nil _)|]. split; [apply Nat.leb_le; reflexivity|]. exists 0%nat. split; [exact one_accepted|]. rewrite one_scalar. discriminate. Qed.
Lemma echo_learned w : 1 + zlen w < 2 ^ 64 -> learned (serve plain_server echo) w (echo w).
Proof. intros B. exact (learnable plain_server echo _ w [] one_tape plain_wf echo_causal (serve_tls plain_server echo echo_causal echo_bounded) B one_able). Qed.
Lemma relayed_ping m : exists srv', tls_server copied echo srv' /\ exists S, final m (ping 2) [] one_tape srv' S /\
  state_after m (ping 2) [] one_tape S = Ended [Wrote (Ok 2); Got (Ok [x61; x62]); Closed (Ok tt)].
Proof.
  destruct (relay plain_server echo _ copied echo plain_wf echo_causal (serve_tls plain_server echo echo_causal echo_bounded) copied_wf echo_causal echo_bounded echo_learned)
    as (srv' & T & R). exists srv'. split; [exact T|].
  destruct (reaches m (ping 2) [] one_tape copied echo srv' one_able copied_wf echo_causal T (ping_short 2)) as (S & F). exists S. split; [exact F|].
  destruct (pipe m (ping 2) [] one_tape copied echo srv' S one_able copied_wf echo_causal T (ping_short 2) F) as (r & P & E & St & _).
  destruct (ping_end 2) as (P' & E'). rewrite (end_unique echo (ping 2) r _ echo_causal P E P' E') in St. exact St.
Qed.
