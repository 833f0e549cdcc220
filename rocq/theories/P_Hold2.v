(** Proofs for C113: streams that keep the client waiting. *)
From Verif Require Export P_Hold.
From Verif Require Import P_Util P_Codec P_CodecProps P_RecordW P_RecordR P_Record P_Record2 P_Aead P_Client P_Client2 P_App P_App2 P_Client3 P_Client4 P_Client5 P_Pending P_Accept P_Receive P_Build.
From Coq Require Import ZifyBool ZifyNat ZifyN.
Import String.StringSyntax.
Local Open Scope string_scope.
Local Open Scope list_scope.
Local Open Scope Z_scope.
#[local] Opaque SHA256 HMAC aead_seal aead_decrypt aead_encrypt compute_keys PRF nmul.

Lemma incomplete_prefix p q : incomplete (p ++ q) -> incomplete p.
Proof. intros (ty & body & r & L & E & N). exists ty, body, (q ++ r). rewrite app_assoc. split; [exact L|]. split; [exact E|]. intros X. apply app_eq_nil in X as (_ & X). contradiction. Qed.
Lemma drip_comes : forall b pend z x v p b', incomplete (pend ++ b) -> comes Clear (pend ++ b) z x v p b' -> comes Clear pend (dripping b ++ z) x v p b'.
Proof.
  induction b as [|y b IH]; intros pend z x v p b' I C; [rewrite app_nil_r in C; exact C|].
  unfold dripping. cbn [map concat]. rewrite <- app_assoc. fold (dripping b).
  apply (N_more Clear pend _ [y] Clear (dripping b ++ z)); [exact (incomplete_prefix pend (y :: b) I)| |discriminate|].
  - apply G_record; [change (zlen [y]) with 1; lia|]. apply O_clear. change (zlen [y]) with 1. lia.
  - apply IH; rewrite <- app_assoc; assumption.
Qed.
Lemma drip_len b : zlen (dripping b) = 6 * zlen b.
Proof.
  induction b as [|y b IH]; [reflexivity|]. unfold dripping in *. cbn [map concat]. rewrite zlen_app, IH, zlen_cons.
  unfold e_record. rewrite wire_len. change (zlen [y]) with 1. lia.
Qed.
Lemma zero_no_type t : x00 <> z2b (rfc_content_type t).
Proof. destruct t; discriminate. Qed.
(** after the records of an unfinished message the client is waiting: the end and a foreign byte make a difference *)
Lemma drip_waits b m p g : incomplete b -> 6 * zlen b + 1 < 2 ^ 64 -> (32 <= length g)%nat -> healthy (writer_new p) ->
  fst (client_new m (source (dripping b ++ [])) p g) = Err IoFailure /\ fst (client_new m (source (dripping b ++ [x00])) p g) = Err UnexpectedMessage.
Proof.
  intros I L Lg H.
  assert (K : forall z e v p0 b0, comes Clear b z (Err e) v p0 b0 -> zlen z <= 1 -> fst (client_new m (source (dripping b ++ z)) p g) = Err e).
  { intros z e v p0 b0 C Lz.
    assert (B : building m g (stream (source (dripping b ++ z))) (Err e) (Hello (firstn 32 g))).
    { rewrite source_stream. apply B_first; [exact Lg|]. apply (S_hello m (skipn 32 g) _ (Err e) (Err e) v p0 b0); [|constructor].
      exists (Err e). split; [|reflexivity]. apply (drip_comes b []); assumption. }
    assert (R : zlen (stream (source (dripping b ++ z))) < 2 ^ 64) by (rewrite source_stream, zlen_app, drip_len; lia).
    destruct (building_sound m _ p g _ _ H (source_clean _) R B) as (_ & c & E & _). rewrite E. reflexivity. }
  split.
  - apply (K [] IoFailure Clear b []); [|vm_compute; discriminate]. apply N_error; [exact I|]. apply G_end. left. reflexivity.
  - apply (K [x00] UnexpectedMessage Clear b []); [|vm_compute; discriminate]. apply N_error; [exact I|]. apply G_type. exact zero_no_type.
Qed.
Lemma long_pending : exists b, incomplete b /\ zlen b = most_pending.
Proof.
  set (n := Z.to_nat (2 ^ 24 - 2)). assert (Ln : Z.of_nat n = 2 ^ 24 - 2) by (apply Z2Nat.id; lia). clearbody n.
  assert (Lz : zlen (zeros n) = 2 ^ 24 - 2) by (unfold zlen, zeros; rewrite repeat_length; exact Ln).
  exists ([x01] ++ be 3 (2 ^ 24 - 1) ++ zeros n). split.
  - exists x01, (zeros n ++ [x00]), [x00]. rewrite zlen_app, Lz. change (zlen [x00]) with 1. split; [lia|]. split; [|discriminate].
    unfold frame, sp_vec. rewrite zlen_app, Lz. change (zlen [x00]) with 1. replace (2 ^ 24 - 2 + 1) with (2 ^ 24 - 1) by lia. rewrite <- !app_assoc. reflexivity.
  - rewrite !zlen_app, Lz. change (zlen [x01]) with 1. unfold zlen. rewrite be_length. unfold most_pending. lia.
Qed.
Theorem held_long : exists a x y, zlen a = 6 * most_pending /\ forall m p g, (32 <= length g)%nat -> healthy (writer_new p) ->
  fst (client_new m (source (a ++ x)) p g) <> fst (client_new m (source (a ++ y)) p g).
Proof.
  destruct long_pending as (b & I & L). exists (dripping b), [], [x00]. split; [rewrite drip_len, L; reflexivity|]. intros m p g Lg H.
  destruct (drip_waits b m p g I ltac:(rewrite L; unfold most_pending; lia) Lg H) as (-> & ->). discriminate.
Qed.

(** one connection with different continuations *)
Lemma connection_then m : exists before ss, forall rest, exists c, client_new m (source (before ++ rest)) [] one_tape = (Ok tt, c) /\
  keyed m (c_reader c) (k_server (s_keys ss)) (iv_server (s_keys ss)) 1 /\ r_buf (c_reader c) = [] /\ c_buf c = [] /\ stream (r_src (c_reader c)) = rest.
Proof.
  destruct (server_agrees plain_server (firstn 32 one_tape) 1 plain_wf ltac:(lia)) as (ss & A).
  set (bs := concat (map e_handshake [server_hello_msg (s_sh ss); certificate (s_certs ss); server_key_exchange (s_ske ss); server_hello_done])).
  destruct (fragments_legal bs) as (E1 & L1 & _). set (fs1 := chunks (Z.to_nat RECORD_MAX_LEN) bs) in *.
  destruct (fin_wf (s_master ss) "server finished" (s_msgs ss ++ [s_client_fin ss])) as (_ & _ & L2). change (finished _) with (s_server_fin ss) in L2.
  set (fs2 := [e_handshake (s_server_fin ss)]). exists (served ss fs1 fs2), ss. intros rest.
  pose proof (honest_connects m plain_server one_tape 0 ss (source (served ss fs1 fs2 ++ rest)) [] fs1 fs2 rest plain_wf ltac:(cbn; lia) one_accepted) as H.
  rewrite one_scalar in H. specialize (H ltac:(discriminate) A (conj L1 E1)).
  destruct H as (c & H).
  - split; [constructor; [exact L2|constructor]|]. cbn [concat fs2]. apply app_nil_r.
  - apply source_stream.
  - constructor.
  - exists c. destruct H as (H1 & _ & _ & H2 & _ & _ & H5 & H6 & H7). auto.
Qed.
Lemma stream_split key iv t : forall fs k gs, sealed_stream key iv k t (fs ++ gs) = sealed_stream key iv k t fs ++ sealed_stream key iv (k + zlen fs) t gs.
Proof.
  induction fs as [|f fs IH]; intros k gs; cbn [app sealed_stream]; [change (zlen []) with 0; rewrite Z.add_0_r; reflexivity|].
  rewrite IH, zlen_cons, <- app_assoc. do 3 f_equal. lia.
Qed.
Lemma empties_len key iv n : forall k, zlen (sealed_stream key iv k ApplicationDataTy (repeat [] n)) = 21 * Z.of_nat n.
Proof.
  induction n as [|n IH]; intros k; [reflexivity|]. cbn [repeat sealed_stream]. rewrite zlen_app, IH. unfold sealed_record, e_record. rewrite wire_len, seal_len.
  change (zlen []) with 0. lia.
Qed.
Lemma concat_empties {A} n : concat (repeat (@nil A) n) = [].
Proof. induction n; [reflexivity|exact IHn]. Qed.
(** a read of one byte waits through any number of empty records *)
Theorem held_reading : forall m, exists before, forall n, Z.of_nat n < 2 ^ 62 -> exists a x c c' d d', zlen a = 21 * Z.of_nat n /\
  client_new m (source (before ++ a)) [] one_tape = (Ok tt, c) /\ client_new m (source (before ++ a ++ x)) [] one_tape = (Ok tt, c') /\
  stream (r_src (c_reader c)) = a /\ stream (r_src (c_reader c')) = a ++ x /\
  client_read m 1 c = (Ok [], d) /\ client_read m 1 c' = (Ok [x41], d').
Proof.
  intros m. destruct (connection_then m) as (before & ss & H). exists before. intros n Hn. set (key := k_server (s_keys ss)) in *. set (iv := iv_server (s_keys ss)) in *.
  set (a := sealed_stream key iv 1 ApplicationDataTy (repeat [] n)). set (x := sealed_stream key iv (1 + zlen (repeat (@nil byte) n)) ApplicationDataTy [[x41]]).
  assert (Lr : zlen (repeat (@nil byte) n) = Z.of_nat n) by (unfold zlen; rewrite repeat_length; reflexivity).
  assert (F : Forall (fun f => zlen f <= 16384) (repeat (@nil byte) n)).
  { apply Forall_forall. intros f Hf. apply repeat_spec in Hf. subst f. vm_compute. discriminate. }
  destruct (H a) as (c & E & K & B & Cb & S). destruct (H (a ++ x)) as (c' & E' & K' & B' & Cb' & S').
  assert (V : serving m c key iv 1 (repeat [] n) []).
  { split; [exact K|]. split; [rewrite app_nil_r; exact S|]. split; [exact F|]. split; [rewrite Lr; lia|]. apply no_pending_nil. exact B. }
  assert (V' : serving m c' key iv 1 (repeat [] n ++ [[x41]]) []).
  { split; [exact K'|]. split; [rewrite app_nil_r, stream_split; exact S'|]. split; [apply Forall_app; split; [exact F|constructor; [vm_compute; discriminate|constructor]]|].
    split; [rewrite zlen_app, Lr; change (zlen [[x41]]) with 1; lia|]. apply no_pending_nil. exact B'. }
  destruct (last_read m c key iv 1 _ 1 V) as (d & Ed & _); [rewrite Cb, concat_empties; cbn; lia|]. rewrite Cb, concat_empties in Ed.
  destruct (serves m key iv [] [1%nat] c' 1 _ V') as (outs & d' & k' & fs' & Eo & Lo & Co & _); [rewrite Cb', concat_app, concat_empties; cbn; lia|].
  rewrite Cb', concat_app, concat_empties in Co. cbn [app concat] in Co.
  destruct outs as [|o [|o2 outs]]; try discriminate Lo. cbn [map] in Lo. injection Lo as Lo. destruct o as [|b [|b2 o]]; try discriminate Lo.
  cbn [concat app] in Co. injection Co as -> _.
  cbn [client_reads map] in Eo. destruct (client_read m 1 c') as [r d1] eqn:Er. destruct r; cbn [client_reads] in Eo; try discriminate Eo. injection Eo as -> <-.
  exists a, x, c, c', d, d1. split; [apply empties_len|]. split; [exact E|]. split; [exact E'|]. split; [exact S|]. split; [exact S'|]. split; [exact Ed|]. exact Er.
Qed.
(** nothing but zeros *)
Lemma zeros_refused n m p g : Z.of_nat n < 2 ^ 63 -> (32 <= length g)%nat -> healthy (writer_new p) ->
  fst (client_new m (source (x00 :: zeros n)) p g) = Err UnexpectedMessage.
Proof.
  intros L Lg H.
  assert (B : building m g (stream (source (x00 :: zeros n))) (Err UnexpectedMessage) (Hello (firstn 32 g))).
  { rewrite source_stream. apply B_first; [exact Lg|]. apply (S_hello m (skipn 32 g) _ (Err UnexpectedMessage) (Err UnexpectedMessage) Clear [] (zeros n)); [|constructor].
    exists (Err UnexpectedMessage). split; [|reflexivity]. apply N_error; [destruct long_pending as (b & I & _); exact (incomplete_prefix [] b I)|]. apply G_type. exact zero_no_type. }
  assert (R : zlen (stream (source (x00 :: zeros n))) < 2 ^ 64) by (rewrite source_stream; unfold zlen; cbn [length]; unfold zeros; rewrite repeat_length; lia).
  destruct (building_sound m _ p g _ _ H (source_clean _) R B) as (_ & c & E & _). rewrite E. reflexivity.
Qed.
