(** C79: the conversation with a TLS server, from the ClientHello to the end. *)
From Verif Require Import Spec_Talk2 P_Util P_Codec P_RecordW P_RecordR P_Record P_Record2 P_Aead P_Ecdhe P_Halt P_Client P_Client2 P_App P_App2 P_App3 P_Client3 P_Client5 P_Fault P_Ops P_Talk P_Talk2 P_Talk3 P_Talk4.
From Coq Require Import ZifyBool ZifyNat ZifyN.
Local Open Scope list_scope.
Local Open Scope Z_scope.
#[local] Opaque aead_seal aead_decrypt aead_encrypt compute_keys SHA256 HMAC PRF nmul client_new.

Lemma stream_feed r : stream (feed r) = r.
Proof. exact (like_stream _ _ (like_feed r)). Qed.
Lemma failed_out m q p g r k c : client_new m (feed r) p g = (Err k, c) -> sent_after m q p g r = w_out (c_writer c).
Proof. intros E. unfold sent_after, conduct. rewrite E. destruct (starved c); reflexivity. Qed.
Lemma new_marked m s p g c b : like b [RErr] s -> client_new m s p g = (Ok tt, c) -> marked c.
Proof.
  intros L E. destruct (new_causal m p g b) as [(x & c1 & b1 & _ & D)|(c1 & N & W & _)].
  - destruct (D _ _ L) as (s1 & E1 & L1). rewrite <- init_src in E1. change (client_new m s p g = (x, csrc c1 s1)) in E1. rewrite E in E1.
    apply pair_equal_spec in E1 as [_ ->]. exists b1. exact L1.
  - pose proof (waited N W _ L) as W0. rewrite <- init_src in W0. change (client_new m s p g = (Err IoFailure, c1)) in W0. congruence.
Qed.
Lemma ccs_eof m r : stream (r_src r) = [] -> r_buf r = [] -> exists r', read_change_cipher_spec m r = (Err IoFailure, r').
Proof.
  intros S B. assert (NP : no_pending r) by (unfold no_pending; apply buf_short; exact B).
  unfold read_change_cipher_spec, mbind. rewrite read_message_eq, NP.
  assert (Er : set_buf r (r_buf r) = r) by (destruct r; reflexivity). rewrite Er, pull_eq. unfold mbind, read_record, mbind, r_read.
  pose proof (fill_err (r_src r) 1) as F. rewrite S in F. specialize (F ltac:(cbn; lia)).
  destruct (fill_exact (r_src r) 1) as [y s']. cbn [fst] in F. subst y. eexists; reflexivity.
Qed.
Lemma plain_prefix service q : causal_service service -> forall r, plain_talk service q r -> exists t, service (said q r) = r ++ t.
Proof.
  intros CS. destruct 1 as [|r x t H E]; [eexists; reflexivity|]. destruct (said_grows q r x) as (u & ->).
  destruct (CS (said q r) u) as (v & ->). rewrite E. exists (t ++ v). rewrite <- !app_assoc. reflexivity.
Qed.
Lemma sealed_size key iv t : forall fs k, (length (concat fs) <= length (sealed_stream key iv k t fs))%nat.
Proof. induction fs as [|f fs IH]; intros k; [reflexivity|]. cbn [concat sealed_stream]. rewrite !app_length, sealed_length. specialize (IH (k + 1)). lia. Qed.

Section Tls.
  Variable m : mode.
  Variable q : application.
  Variable p : list wevent.
  Variable g : rng.
  Variable j : nat.
  Variable sv : server.
  Variable service : speech -> bytes.
  Variable srv : bytes -> bytes.
  Hypothesis W : wf_server sv.
  Hypothesis Ht : healthy (writer_new p).
  Hypothesis Lg : (32 <= length g)%nat.
  Hypothesis FA : first_accepted (skipn 32 g) j.
  Hypothesis Sc : used_scalar (draw (skipn 32 g) j) <> 0.
  Hypothesis CS : causal_service service.
  Hypothesis TS : tls_server sv service srv.
  Hypothesis Fin : forall d, 1 + zlen (said q d) < 2 ^ 64.
  Notation sent := (sent_after m q p g).
  Notation conv := (conversation srv sent).
  Notation cr := (firstn 32 g).
  Notation C := (nmul (Z.to_nat (used_scalar (draw (skipn 32 g) j))) Gpt).

  Lemma cr_length : length cr = 32%nat.
  Proof using Lg. rewrite firstn_length. clear - Lg. lia. Qed.
  Lemma sent_nothing : sent [] = flight_hello cr.
  Proof using Ht Lg.
    assert (F : fault m (feed []) g (Hello cr) IoFailure).
    { apply F_first, FF_hello. left. eexists. reflexivity. }
    destruct (faults m _ p g _ _ Ht Lg F) as (c & E & O). rewrite (failed_out _ q _ _ _ _ _ E), O. cbn [stage_out signal]. apply app_nil_r.
  Qed.
  Lemma sent_first ss fs1 : agreed sv cr C ss -> first_flight ss fs1 -> sent (concat (map (e_record HandshakeTy) fs1)) = stage_out (Complete ss).
  Proof using W Ht Lg FA Sc.
    intros A F1. set (R := concat (map (e_record HandshakeTy) fs1)).
    pose proof (exchange_agrees m sv _ j ss _ W FA Sc A) as K. pose proof (agreed_good sv _ j _ ss W cr_length FA Sc A) as G.
    assert (S : stream (r_src (reader_new (feed R))) = R ++ []) by (rewrite app_nil_r; apply stream_feed).
    destruct (first_delivered m (reader_new (feed R)) ss fs1 [] F1 G eq_refl eq_refl eq_refl S) as (r1 & Fl & D1 & _ & B1 & S1 & _).
    assert (RC : reached m (feed R) g (Complete ss)).
    { destruct A as (sx & sy & cx & cy & zx & zy & _ & _ & _ & ->). split; [exact Lg|]. split; [reflexivity|]. split; [exists r1; exact Fl|].
      split; [reflexivity|]. split; [reflexivity|]. split; [reflexivity|]. eexists. exact K. }
    destruct (ccs_eof m (ived_reader r1 (s_keys ss)) S1 B1) as (r2 & E2).
    assert (F : fault m (feed R) g (Complete ss) IoFailure) by (eapply F_second; [exact RC|exact Fl|eapply FA_ccs; exact E2]).
    destruct (faults m _ p g _ _ Ht Lg F) as (c & E & O). rewrite (failed_out _ q _ _ _ _ _ E), O. cbn [signal]. apply app_nil_r.
  Qed.
  Definition flow ss fs1 fs2 fs := served ss fs1 fs2 ++ sealed_stream (k_server (s_keys ss)) (iv_server (s_keys ss)) (zlen fs2) ApplicationDataTy fs.
  Definition spoken ss it := stage_out (Complete ss) ++ sealed_items (k_client (s_keys ss)) (iv_client (s_keys ss)) 1 it.
  Lemma connected_run ss fs1 fs2 fs : agreed sv cr C ss -> first_flight ss fs1 -> second_flight ss fs2 ->
    Forall (fun f => zlen f <= 16384) fs -> zlen fs2 + zlen fs < 2 ^ 64 ->
    state_after m q p g (flow ss fs1 fs2 fs) = plain_state q (concat fs) /\ sent (flow ss fs1 fs2 fs) = spoken ss (items_of q (concat fs)).
  Proof using W Ht Lg FA Sc Fin.
    intros A F1 F2 Lf Nf. unfold flow.
    match goal with |- context [state_after m q p g ?r] => set (R := r) end.
    destruct (honest_connects m sv g j ss (feed R) p fs1 fs2 _ W Lg FA Sc A F1 F2 (stream_feed R) Ht) as (c & E & _ & O & Kr & Kw & Hw & Rb & Cb & St).
    pose proof (new_marked _ _ _ _ _ _ (like_feed R) E) as M.
    assert (Sv : serving m c (k_server (s_keys ss)) (iv_server (s_keys ss)) (zlen fs2) fs []).
    { split; [exact Kr|]. split; [rewrite app_nil_r; exact St|]. split; [exact Lf|]. split; [exact Nf|]. unfold no_pending. apply buf_short. exact Rb. }
    destruct (perform_plain m _ _ _ _ q c _ fs _ Sv M Kw Hw ltac:(apply Fin)) as (c' & P & O').
    rewrite Cb in P, O'. cbn [app] in P, O'.
    unfold state_after, sent_after, conduct. rewrite E, (unstarved _ M), P. split; [reflexivity|]. cbn [snd]. rewrite O', O. reflexivity.
  Qed.
  Lemma items_bound d : 1 + zlen (items_of q d) < 2 ^ 64.
  Proof using Fin. pose proof (legal_says _ (items_legal q d)) as L. rewrite says_items in L. specialize (Fin d). clear - Fin L. lia. Qed.

  Lemma climb ss fs1 fs2 B : agreed sv cr C ss -> first_flight ss fs1 -> second_flight ss fs2 ->
    (forall it, Forall legal_item it -> 1 + zlen it < 2 ^ 64 ->
        exists fs, Forall (fun f => zlen f <= 16384) fs /\ zlen fs2 + zlen fs < 2 ^ 64 /\ concat fs = service (says it) /\ srv (spoken ss it) = flow ss fs1 fs2 fs) ->
    settled srv sent B -> forall n fs, Forall (fun f => zlen f <= 16384) fs -> zlen fs2 + zlen fs < 2 ^ 64 ->
    conv (flow ss fs1 fs2 fs) -> plain_talk service q (concat fs) -> (length B - length (concat fs) < n)%nat ->
    exists fs', Forall (fun f => zlen f <= 16384) fs' /\ zlen fs2 + zlen fs' < 2 ^ 64 /\ conv (flow ss fs1 fs2 fs') /\ settled srv sent (flow ss fs1 fs2 fs') /\
      plain_talk service q (concat fs') /\ service (said q (concat fs')) = concat fs'.
  Proof using W Ht Lg FA Sc Fin CS TS.
    intros A F1 F2 An HB. induction n as [|n IH]; intros fs Lf Nf Cv Pt Ln; [lia|]. pose proof (proj1 TS) as Cs.
    destruct (connected_run ss fs1 fs2 fs A F1 F2 Lf Nf) as (_ & E).
    destruct (An _ (items_legal q (concat fs)) (items_bound _)) as (fs' & Lf' & Nf' & Ef & Es). rewrite says_items in Ef.
    destruct (conv_prefix m q p g srv Cs _ Cv) as (x & Ex). rewrite E, Es in Ex.
    assert (Cv' : conv (flow ss fs1 fs2 fs')).
    { rewrite Ex. apply (Cv_more _ _ _ x [] Cv). rewrite E, Es, Ex, app_nil_r. reflexivity. }
    destruct (plain_prefix service q CS _ Pt) as ([|y t] & Et).
    - rewrite app_nil_r in Et. rewrite Et in Ef. exists fs'. do 3 (split; [assumption|]). rewrite Ef. split; [|auto].
      destruct (connected_run ss fs1 fs2 fs' A F1 F2 Lf' Nf') as (_ & E'). unfold settled. rewrite E', Ef. exact Es.
    - assert (Pt' : plain_talk service q (concat fs')).
      { rewrite Ef, Et. apply (Pt_more _ _ _ (y :: t) [] Pt). rewrite app_nil_r. exact Et. }
      apply (IH fs' Lf' Nf' Cv' Pt').
      destruct (conv_below m q p g srv Cs B _ HB Cv') as (z & Ez). apply (f_equal (@length byte)) in Ez. unfold flow in Ez. rewrite !app_length in Ez.
      pose proof (sealed_size (k_server (s_keys ss)) (iv_server (s_keys ss)) ApplicationDataTy fs' (zlen fs2)) as Sz.
      rewrite Et in Ef. pose proof (f_equal (@length byte) Ef) as Le. rewrite app_length in Le. cbn [length] in Le. lia.
  Qed.
  Theorem tls_conversation : exists ss fs1 fs2 fs, agreed sv cr C ss /\ first_flight ss fs1 /\ second_flight ss fs2 /\
    let S := flow ss fs1 fs2 fs in
    conv S /\ settled srv sent S /\ plain_talk service q (concat fs) /\ service (said q (concat fs)) = concat fs /\
    state_after m q p g S = plain_state q (concat fs) /\ exists it, says it = said q (concat fs) /\ sent S = spoken ss it.
  Proof using W Ht Lg FA Sc Fin CS TS.
    pose proof TS as (Cs & TS'). destruct (conversation_ends m q p g srv Cs) as (B & CB & HB & _).
    destruct (TS' cr cr_length) as (fs1 & t & E1 & TS2).
    destruct (server_agrees sv cr (used_scalar (draw (skipn 32 g) j)) W) as (ss & A).
    { pose proof (used_range (draw (skipn 32 g) j)). lia. }
    destruct (TS2 _ _ A) as (F1 & fs2 & F2 & An). exists ss, fs1, fs2.
    assert (C1 : conv (concat (map (e_record HandshakeTy) fs1))).
    { apply (Cv_more _ _ [] _ t); [constructor|]. rewrite sent_nothing. exact E1. }
    destruct (An [] (Forall_nil _) ltac:(cbn; lia)) as (fs & Lf & Nf & Ef & Es). cbn [sealed_items] in Es. rewrite app_nil_r in Es.
    pose proof (sent_first ss fs1 A F1) as E2.
    assert (C2 : conv (flow ss fs1 fs2 fs)).
    { destruct (conv_prefix m q p g srv Cs _ C1) as (x & Ex). rewrite E2, Es in Ex. unfold flow. rewrite Ex. apply (Cv_more _ _ _ x [] C1). rewrite E2, Es, Ex, app_nil_r. reflexivity. }
    assert (Pt : plain_talk service q (concat fs)).
    { destruct (CS [] (said q [])) as (v & V). apply (Pt_more service q [] (concat fs) v); [constructor|]. cbn [app]. rewrite Ef. exact V. }
    destruct (climb ss fs1 fs2 B A F1 F2 An HB (Datatypes.S (length B)) fs Lf Nf C2 Pt ltac:(lia)) as (fs' & Lf' & Nf' & C3 & S3 & Pt' & Fx).
    exists fs'. do 3 (split; [assumption|]). cbv zeta. do 4 (split; [assumption|]).
    destruct (connected_run ss fs1 fs2 fs' A F1 F2 Lf' Nf') as (Q1 & Q2). split; [exact Q1|]. exists (items_of q (concat fs')). split; [apply says_items|exact Q2].
  Qed.
End Tls.

(** ** There is one end on either side *)
Lemma plain_below service q : causal_service service -> forall e, service (said q e) = e -> forall r, plain_talk service q r -> exists x, e = r ++ x.
Proof.
  intros CS e F. induction 1 as [|r x t H (y & IH) E]; [exists e; reflexivity|].
  destruct (said_grows q r y) as (u & U). rewrite <- IH in U. destruct (CS (said q r) u) as (v & V). rewrite <- U, F, E in V. exists (t ++ v). rewrite V, <- !app_assoc. reflexivity.
Qed.
Lemma prefixes_equal {A} (a b : list A) : (exists x, a = b ++ x) -> (exists y, b = a ++ y) -> a = b.
Proof.
  intros (x & ->) (y & E). rewrite <- app_assoc in E. rewrite <- (app_nil_r b) in E at 1. apply app_inv_head in E. symmetry in E.
  apply app_eq_nil in E as (-> & _). apply app_nil_r.
Qed.
Theorem tls_pipe m q p g j sv service srv : wf_server sv -> healthy (writer_new p) -> (32 <= length g)%nat -> first_accepted (skipn 32 g) j ->
  used_scalar (draw (skipn 32 g) j) <> 0 -> causal_service service -> tls_server sv service srv -> (forall d, 1 + zlen (said q d) < 2 ^ 64) ->
  exists S r, conversation srv (sent_after m q p g) S /\ settled srv (sent_after m q p g) S /\
    (forall S', conversation srv (sent_after m q p g) S' -> settled srv (sent_after m q p g) S' -> S' = S) /\
    plain_talk service q r /\ service (said q r) = r /\ (forall r', plain_talk service q r' -> service (said q r') = r' -> r' = r) /\
    state_after m q p g S = plain_state q r /\
    exists ss fs1 fs2 fs it, agreed sv (firstn 32 g) (nmul (Z.to_nat (used_scalar (draw (skipn 32 g) j))) Gpt) ss /\
      concat fs = r /\ S = served ss fs1 fs2 ++ sealed_stream (k_server (s_keys ss)) (iv_server (s_keys ss)) (zlen fs2) ApplicationDataTy fs /\
      says it = said q r /\
      sent_after m q p g S = stage_out (Complete ss) ++ sealed_items (k_client (s_keys ss)) (iv_client (s_keys ss)) 1 it.
Proof.
  intros W Ht Lg FA Sc CS TS Fin. pose proof (proj1 TS) as Cs.
  destruct (tls_conversation m q p g j sv service srv W Ht Lg FA Sc CS TS Fin) as (ss & fs1 & fs2 & fs & A & F1 & F2 & Cv & St & Pt & Fx & Eq & it & Ei & Es).
  eexists _, (concat fs). split; [exact Cv|]. split; [exact St|]. split.
  { intros S' C' T'. apply prefixes_equal; [apply (conv_below m q p g srv Cs S' _ T' Cv)|apply (conv_below m q p g srv Cs _ S' St C')]. }
  split; [exact Pt|]. split; [exact Fx|]. split.
  { intros r' P' T'. apply prefixes_equal; [apply (plain_below service q CS r' T' _ Pt)|apply (plain_below service q CS _ Fx _ P')]. }
  split; [exact Eq|]. exists ss, fs1, fs2, fs, it. split; [exact A|]. split; [reflexivity|]. split; [reflexivity|]. split; [exact Ei|exact Es].
Qed.

(** ** An example: a service that sends back what it hears *)
Fixpoint letters (w : speech) : bytes := match w with [] => [] | Some b :: w => b :: letters w | None :: w => letters w end.
Lemma letters_app a b : letters (a ++ b) = letters a ++ letters b.
Proof. induction a as [|[x|] a IH]; cbn [app letters]; rewrite ?IH; reflexivity. Qed.
(** up to a limit *)
Definition echo (w : speech) : bytes := firstn 1000 (letters w).
Lemma echo_causal : causal_service echo.
Proof. intros a b. unfold echo. rewrite letters_app, firstn_app. eexists. reflexivity. Qed.
Lemma echo_bounded w : 16 + zlen (echo w) < 2 ^ 64.
Proof. unfold echo, zlen. pose proof (firstn_le_length 1000 (letters w)). pose proof (firstn_length 1000 (letters w)). lia. Qed.
Definition ping n : application := Do (Write [x61; x62]) (fun _ => Do (Read n) (fun _ => Do Close (fun _ => Quit))).
Lemma ping_said n d : said (ping n) d = [Some x61; Some x62] ++ (if (n <=? length d)%nat then [None] else []).
Proof. unfold said, ping. cbn [plain]. destruct (n <=? length d)%nat; reflexivity. Qed.
Lemma ping_end n : plain_talk echo (ping n) [x61; x62] /\ echo (said (ping n) [x61; x62]) = [x61; x62].
Proof.
  assert (E : forall d, echo (said (ping n) d) = [x61; x62]) by (intros d; rewrite ping_said; destruct (n <=? length d)%nat; reflexivity).
  split; [|apply E]. apply (Pt_more echo (ping n) [] [x61; x62] []); [constructor|]. apply E.
Qed.
Lemma ping_short n d : 1 + zlen (said (ping n) d) < 2 ^ 64.
Proof. rewrite ping_said. destruct (n <=? length d)%nat; cbv; reflexivity. Qed.
