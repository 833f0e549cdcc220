(** C109: streams on which construction panics. *)
From Verif Require Import Spec_Crash P_Util P_Codec P_CodecProps P_RecordW P_RecordR P_Record P_Record2 P_Aead P_Ecdhe P_Halt P_Client P_Client2 P_App P_App2 P_Panic P_Client3 P_Fault P_Client4 P_Client5 P_Pending P_Open P_Eof P_Accept P_Receive P_Build P_Twice P_Limbs P_P256X P_Scalar P_Decode256 P_Other2 P_Crash P_Crash2.
From Coq Require Import ZifyBool ZifyNat ZifyN.
Local Open Scope list_scope.
Local Open Scope Z_scope.
#[local] Opaque SHA256 HMAC aead_seal aead_decrypt aead_encrypt compute_keys PRF nmul from_uncompressed_bytes.

(** the three messages of a plain server with the point (x, y) *)
Definition point_ske (x y : Z) : ske := Ske secp256r1 (enc x y) (sv_sig plain_server).
Definition point_stream (x y : Z) : bytes :=
  wire HandshakeTy x03 x03 (e_handshake (server_hello_msg (sv_hello plain_server))) ++ wire HandshakeTy x03 x03 (e_handshake (certificate [])) ++
  wire HandshakeTy x03 x03 (e_handshake (server_key_exchange (e_ske (point_ske x y)))).
Lemma asks_one h rest : wf_handshake h -> zlen (e_handshake h) <= 16384 -> asks Clear [] (wire HandshakeTy x03 x03 (e_handshake h) ++ rest) (Ok h) Clear [] rest.
Proof.
  intros W L. exists (Ok (HandshakeMessage h)). split; [|reflexivity].
  eapply N_more; [exact none_nil|apply G_record; [lia|apply O_clear; exact L]|intros E; apply (f_equal (@length byte)) in E; discriminate E|].
  cbn [app]. rewrite <- (app_nil_r (e_handshake h)). change (e_handshake h) with (frame (z2b (hs_type h)) (e_hs_body h)). apply N_message; [apply W|]. exact (hs_read_enc h W).
Qed.
Lemma point_len x y : zlen (e_ske (point_ske x y)) = 73.
Proof. unfold e_ske, point_ske, sp_vec, zlen. cbn [ske_curve ske_public ske_signed]. rewrite !app_length, !be_length, enc_length. reflexivity. Qed.
Lemma point_given x y : given (point_stream x y) (sv_hello plain_server) [] (e_ske (point_ske x y) ++ []) [] [].
Proof.
  rewrite app_nil_r. unfold point_stream. econstructor; [econstructor; [econstructor|]|].
  - apply asks_one; [vm_compute; repeat split; discriminate|vm_compute; discriminate].
  - split; [reflexivity|split; reflexivity].
  - apply asks_one; [|vm_compute; discriminate]. split; [split; [constructor|discriminate]|reflexivity].
  - rewrite <- (app_nil_r (wire HandshakeTy x03 x03 (e_handshake (server_key_exchange _)))). apply asks_one.
    + split; [exact I|]. cbn [e_hs_body]. rewrite point_len. lia.
    + rewrite e_handshake_len. cbn [e_hs_body]. rewrite point_len. lia.
Qed.

Lemma point_sent x y : 0 <= x < 2 ^ 256 -> 0 <= y < 2 ^ 256 -> sends_point (point_stream x y) x y.
Proof.
  intros Hx Hy. exists (sv_hello plain_server), [], (point_ske x y), [], [], []. split; [apply point_given|]. split; [|auto].
  split; [|apply plain_wf]. unfold in_range, zlen. cbn [point_ske ske_public]. rewrite enc_length. lia.
Qed.
Lemma no_draws : ~ enough_randomness [].
Proof. intros (k & L & _). cbn [length] in L. lia. Qed.
(** a debug build stops on a point off the curve; a release build waits for the ServerHelloDone *)
Lemma parting_run : exists bs, parting one_tape bs /\ zlen bs < 2 ^ 64 /\ building Release one_tape bs (Err IoFailure) (Hello (firstn 32 one_tape)).
Proof.
  assert (Hx : 0 <= off_x < 2 ^ 256) by (split; [discriminate|reflexivity]). assert (Hy : 0 <= off_y < 2 ^ 256) by (split; [discriminate|reflexivity]).
  assert (O : overstepping off_x) by (split; vm_compute; discriminate). assert (W : welcome off_x off_y) by (right; split; [vm_compute; discriminate|vm_compute; reflexivity]).
  assert (L : (32 <= length one_tape)%nat) by (vm_compute; lia).
  exists (point_stream off_x off_y). split; [split; [exact L|]; exists off_x, off_y; split; [exact (point_sent _ _ Hx Hy)|exact O]|]. split; [vm_compute; reflexivity|].
  apply B_first; [exact L|]. pose proof (point_given off_x off_y) as G.
  destruct (decode_once Release off_x off_y _ Hx Hy eq_refl) as [(X & _)|(_ & [[_ (N & F & _)]|[B _]])]; [discriminate X| |contradiction].
  assert (R : tls_read i_ske (e_ske (point_ske off_x off_y) ++ []) = Ok (point_ske off_x off_y, [])).
  { apply read_ske_iff. split; [|reflexivity]. split; [|apply plain_wf]. unfold in_range, zlen. cbn [point_ske ske_public]. rewrite enc_length. lia. }
  destruct (exchange_secret Release _ (skipn 32 one_tape) _ _ N 0 R F one_accepted) as (pub & g' & K).
  eapply S_done; [exact G|exact K| |apply T_error]. exists (Err IoFailure). split; [|reflexivity]. apply N_error; [exact none_nil|]. apply G_end. left. reflexivity.
Qed.
(** no randomness for the secret *)
Lemma starved_run m : exists g, length g = 32%nat /\ breaks_down m g (point_stream Gx Gy).
Proof.
  exists (repeat x00 32). split; [reflexivity|]. apply (Crash_secret _ _ _ Gx Gy); [cbn; lia| | | |exact no_draws].
  - apply point_sent; (split; [discriminate|reflexivity]).
  - left. split; vm_compute; reflexivity.
  - intros _ [A _]. apply A. reflexivity.
Qed.
(** an over-long record under the server's key *)
Lemma burst_run m : exists ss before, let p := repeat x00 (Z.to_nat 16385) in
  breaks_down m one_tape (before ++ wire ChangeCipherSpecTy x03 x03 [x01] ++
    wire HandshakeTy x03 x03 (aead_seal (k_server (s_keys ss)) (rfc_nonce (iv_server (s_keys ss)) 0) (rfc_ad 0 HandshakeTy x03 x03 16385) p)).
Proof.
  destruct (flight_run m) as (ss & before & pend & N & P). exists ss, before. intros p. assert (Lp : zlen p = 16385) by (unfold p, zlen; rewrite repeat_length, Z2Nat.id; lia). clearbody p.
  set (f := aead_seal _ _ _ p). assert (Pr : protects (k_server (s_keys ss)) (iv_server (s_keys ss)) 0 HandshakeTy x03 x03 p f) by (unfold protects; rewrite Lp; reflexivity).
  eapply Crash_record; [apply P| |].
  - eapply N_other; [exact N|apply G_record; [discriminate|apply O_clear; discriminate]|apply K_ccs].
  - rewrite <- (app_nil_r (wire HandshakeTy x03 x03 f)). pose proof (protects_len _ _ _ _ _ _ _ _ Pr). eapply Burst; [exact N|lia|exact Pr|lia].
Qed.
Lemma bursts_iff key iv k pend bs : bursts key iv k pend bs <-> exists v p b, comes (Sealed key iv k) pend bs Panic v p b.
Proof. split; [apply bursts_sound|]. intros (v & p & b & C). exact (bursts_complete _ _ _ _ _ _ _ C _ _ _ eq_refl eq_refl). Qed.
Lemma builds_disagree : exists s g c c', clean s /\ client_new Debug s [] g = (Panic, c) /\ client_new Release s [] g = (Err IoFailure, c').
Proof.
  destruct parting_run as (bs & Q & R & B). pose proof (source_clean bs) as C. pose proof (source_stream bs) as S0. assert (H : healthy (writer_new [])) by constructor.
  assert (R' : zlen (stream (source bs)) < 2 ^ 64) by (rewrite S0; exact R).
  destruct (building_sound Release (source bs) [] one_tape (Err IoFailure) (Hello (firstn 32 one_tape)) H C R') as (_ & c' & E' & _); [rewrite S0; exact B|].
  destruct (building_sound Debug (source bs) [] one_tape Panic (Hello (firstn 32 one_tape)) H C R') as (_ & c & E & _); [rewrite S0; exact (parting_debug _ _ Q)|].
  exists (source bs), one_tape, c, c'. auto.
Qed.
Lemma quiet_run m : ~ breaks_down m one_tape [].
Proof.
  intros B. apply panics_iff in B as (st & B). destruct (early_run m) as (A & _). destruct (building_once m one_tape [] _ _ _ _ eq_refl B A) as [X _]. discriminate X.
Qed.
