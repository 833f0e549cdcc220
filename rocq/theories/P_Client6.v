(** Proofs about src/client.rs: extensions nobody asked for, and writing after closing. *)
From Verif Require Import Spec_Client2 P_Util P_Codec P_RecordW P_RecordR P_Record P_Client P_Client2 P_App P_App2 P_Client3 P_Client4 P_Ops P_Client5 P_Aead.
From Coq Require Import ZifyBool ZifyNat ZifyN.
Import String.StringSyntax.
Local Open Scope string_scope.
Local Open Scope list_scope.
Local Open Scope Z_scope.
#[local] Opaque SHA256 HMAC aead_seal aead_decrypt aead_encrypt compute_keys PRF nmul.

(** ** Extensions *)
Definition extended_server (x : option (list extension)) (sid : bytes) : server :=
  Server (repeat x00 32) sid x [] secp256r1 1 (DigSigned (SigHash H_sha256 S_rsa) []).
Lemma extended_wf x sid : wf_exts x -> zlen sid <= 32 -> wf_server (extended_server x sid).
Proof.
  intros W L. destruct plain_wf as (_ & W2 & W3 & W4). split; [|split; [exact W2|split; [exact W3|exact W4]]].
  split; [|discriminate]. split; [reflexivity|]. split; [exact L|exact W].
Qed.
Theorem extensions_ignored m x sid : wf_exts x -> zlen sid <= 32 -> exists s g c ss,
  client_new m s [] g = (Ok tt, c) /\ reached m s g (Complete ss) /\ sh_exts (s_sh ss) = x /\ sh_session (s_sh ss) = sid.
Proof.
  intros W L. destruct (conforming_run m _ (fun _ => []) (extended_wf x sid W L)) as (s & ss & c & _ & A & E & R & _).
  exists s, one_tape, c, ss. split; [exact E|]. split; [exact R|]. destruct A as (sx & sy & cx & cy & zx & zy & _ & _ & _ & ->). auto.
Qed.
Lemma unsolicited m : exists s g c ss ty d, client_new m s [] g = (Ok tt, c) /\ reached m s g (Complete ss) /\
  sh_exts (s_sh ss) = Some [ext_unknown ty d; ext_unknown ty d] /\ ~ In ty [10; 11; 13].
Proof.
  destruct (extensions_ignored m (Some [ext_unknown 23 []; ext_unknown 23 []]) []) as (s & g & c & ss & E & R & X & _).
  - split; [|discriminate]. assert (W : wf_ext (ext_unknown 23 [])) by (split; [split; [split; discriminate|repeat split; discriminate]|discriminate]). repeat (constructor; [exact W|]). constructor.
  - discriminate.
  - exists s, g, c, ss, 23, []. do 3 (split; [assumption|]). cbn. intros [H|[H|[H|H]]]; discriminate H || exact H.
Qed.

(** ** After closing *)
Theorem writes_after_close m s p g c buf : client_new m s p g = (Ok tt, c) -> healthy (writer_new p) -> 2 + zlen buf < 2 ^ 64 ->
  exists ss fs c', reached m s g (Complete ss) /\ concat fs = buf /\ Forall legal_fragment fs /\
    calls m [Close; Write buf] c = ([Closed (Ok tt); Wrote (Ok (zlen buf))], c') /\
    w_out (c_writer c') = stage_out (Complete ss) ++ sealed_record (k_client (s_keys ss)) (iv_client (s_keys ss)) 1 AlertTy [x02; x00] ++
      sealed_stream (k_client (s_keys ss)) (iv_client (s_keys ss)) 2 ApplicationDataTy fs.
Proof.
  intros E H L. destruct (calls m [Close; Write buf] c) as [as_ c'] eqn:C.
  destruct (connected_emit m s p g c [Close; Write buf] as_ c' E ltac:(cbn [cost fold_right call_cost]; lia) C) as [G1 G2].
  specialize (G1 H). destruct (G2 G1) as (ss & it & R & Rn & O). clear G2.
  inversion G1 as [|? a1 ? l1 A1 G3]; subst. inversion G3 as [|? a2 ? l2 A2 G4]; subst. inversion G4; subst.
  destruct a1 as [|x1|x1]; try destruct A1. destruct a2 as [|x2|x2]; try destruct A2. 
  inversion Rn as [| | |l it' Rn']; subst. inversion Rn' as [| |b fs l it2 Cf Lf Rn2|]; subst. inversion Rn2; subst.
  exists ss, fs, c'. split; [exact R|]. split; [reflexivity|]. split; [exact Lf|]. split; [cbn [good_answer] in *; subst; reflexivity|].
  rewrite O. cbn [sealed_items]. do 2 f_equal. rewrite app_nil_r. change (1 + 1) with 2. clear. generalize 2 as k.
  induction fs as [|f fs IH]; intros k; [reflexivity|]. cbn [map sealed_items sealed_stream]. rewrite IH. reflexivity.
Qed.
Lemma closed_sends m : exists s g c c' more, client_new m s [] g = (Ok tt, c) /\
  calls m [Close; Write [x61]] c = ([Closed (Ok tt); Wrote (Ok 1)], c') /\
  w_out (c_writer c') = w_out (c_writer (snd (calls m [Close] c))) ++ more /\ more <> [].
Proof.
  destruct (plain_run m (fun _ => [])) as (s & g & ss0 & c & E & _).
  destruct (writes_after_close m s [] g c [x61] E (Forall_nil _) ltac:(reflexivity)) as (ss & fs & c' & R & Cf & Lf & C & O).
  destruct (calls m [Close] c) as [as1 c1] eqn:C1.
  destruct (connected_emit m s [] g c [Close] as1 c1 E ltac:(reflexivity) C1) as [G1 G2]. 
  destruct (G2 (G1 (Forall_nil _))) as (ss1 & it & R1 & Rn & O1). rewrite (reached_det _ _ _ _ _ R1 R) in *.
  inversion Rn as [| | |l it' Rn']; subst. inversion Rn'; subst. cbn [sealed_items] in O1. rewrite app_nil_r in O1.
  exists s, g, c, c', (sealed_stream (k_client (s_keys ss)) (iv_client (s_keys ss)) 2 ApplicationDataTy fs).
  split; [exact E|]. split; [exact C|]. rewrite C1. cbn [snd]. rewrite O, O1, <- app_assoc. split; [reflexivity|].
  destruct fs as [|f fs]; [discriminate Cf|]. cbn [sealed_stream]. unfold sealed_record, e_record, wire. discriminate.
Qed.

(** ** A run with few bytes *)
Lemma short_run m : exists s g c ss, zlen (all_bytes s) < 1000 /\ client_new m s [] g = (Ok tt, c) /\ reached m s g (Complete ss).
Proof.
  destruct (server_agrees plain_server (firstn 32 one_tape) 1 plain_wf ltac:(lia)) as (ss & A).
  set (bs := concat (map e_handshake [server_hello_msg (s_sh ss); certificate (s_certs ss); server_key_exchange (s_ske ss); server_hello_done])).
  assert (Lb : (length bs <= 400 /\ 0 < length bs)%nat).
  { unfold bs. clear - A. destruct A as (sx & sy & cx & cy & zx & zy & _ & _ & _ & ->). cbn [s_sh s_certs s_ske].
    generalize (fval sx) (fval sy). intros a b. unfold sec1. set (u := be 32 a). set (v := be 32 b).
    assert (Lu : length u = 32%nat) by apply be_length. assert (Lv : length v = 32%nat) by apply be_length. clearbody u v.
    do 33 (destruct u as [|? u]; try discriminate Lu). do 33 (destruct v as [|? v]; try discriminate Lv).
    split; vm_compute; repeat constructor. }
  destruct (fin_wf (s_master ss) "server finished" (s_msgs ss ++ [s_client_fin ss])) as (_ & L16 & L2). change (finished _) with (s_server_fin ss) in L2, L16.
  pose proof (honest_connects m plain_server one_tape 0 ss (source (served ss [bs] [e_handshake (s_server_fin ss)] ++ [])) [] [bs] [e_handshake (s_server_fin ss)] [] plain_wf ltac:(cbn; lia) one_accepted) as H.
  rewrite one_scalar in H. specialize (H ltac:(discriminate) A).
  destruct H as (c & H).
  - split; [|cbn [concat]; apply app_nil_r]. constructor; [|constructor]. unfold legal_fragment, zlen. lia.
  - split; [constructor; [exact L2|constructor]|]. cbn [concat]. apply app_nil_r.
  - apply source_stream.
  - constructor.
  - destruct H as (H1 & H0 & _). eexists _, _, c, ss. split; [|split; [exact H1|exact H0]].
    assert (Sb : forall b, all_bytes (source b) = b) by (intros [|x l]; [reflexivity|]; cbn; rewrite app_nil_r; reflexivity).
    rewrite Sb. unfold served, sealed_record, e_record, wire. cbn [map concat sealed_stream]. unfold sealed_record, e_record, wire.
    unfold zlen in *. repeat (rewrite ?app_length, ?aead_seal_length, ?be_length; cbn [length]). lia.
Qed.
