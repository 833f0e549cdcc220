(** Proofs about src/client.rs: which bytes the server's Finished was put together from, and what they leave behind. *)
From Verif Require Import Spec_Client2 P_Util P_Codec P_CodecProps P_RecordW P_RecordR P_Record P_Record2 P_Aead P_Ecdhe P_Halt P_Client P_Client2 P_App P_App2 P_Panic P_Client3 P_Client4 P_Client5.
From Coq Require Import ZifyBool ZifyNat ZifyN.
Import String.StringSyntax.
Local Open Scope string_scope.
Local Open Scope list_scope.
Local Open Scope Z_scope.
#[local] Opaque SHA256 HMAC aead_seal aead_decrypt aead_encrypt compute_keys PRF nmul.

Lemma no_pending_iff r : no_pending r <-> get_message (r_buf r) = (Ok None, r_buf r).
Proof. unfold no_pending. tauto. Qed.

Lemma get_message_none buf b : get_message buf = (Ok None, b) -> b = buf.
Proof.
  destruct (buffer_cases buf) as [H|[(ty & n & body & R & L & ->)|(ty & n & body & rest' & R & L & ->)]].
  - rewrite get_message_short by exact H. congruence.
  - rewrite get_message_incomplete by assumption. congruence.
  - rewrite get_message_framed by assumption. destruct (hs_read _) as [[]| | |]; discriminate.
Qed.

(** one record under the server's key *)
Lemma keyed_record_ok m r key iv k rec r' : keyed m r key iv k -> k + 1 < 2 ^ 64 -> read_record m r = (Ok rec, r') ->
  exists t maj min p, rec = Rec t maj min p /\ r_buf r' = r_buf r /\ keyed m r' key iv (k + 1) /\ left r' + 5 <= left r /\
    all_bytes (r_src r) = wire t maj min (aead_seal key (rfc_nonce iv k) (rfc_ad k t maj min (zlen p)) p) ++ all_bytes (r_src r').
Proof.
  intros Kd Hk E. pose proof Kd as (D & V & C & Lk & Li & K0).
  apply read_record_inv in E as (t & maj & min & frag & f & c & -> & Lf & LF & Ab & Sz & U & Ec & Er).
  assert (Hc : c = k + 1) by (rewrite C, ck_ok in Ec by lia; apply Ok_inj in Ec; lia). subst c.
  exists t, maj, min, f. split; [reflexivity|]. split; [rewrite Er; reflexivity|].
  split; [rewrite Er; unfold keyed; cbn [set_count set_src r_dec r_iv r_count]; repeat (split; [assumption || reflexivity|]); lia|].
  split; [unfold left; lia|]. rewrite Ab. do 2 f_equal.
  unfold unprotect in U. rewrite D in U. cbn [new_decryptor dc_mac_len dc_decrypt] in U.
  destruct (zlen frag <? 16) eqn:E16; [discriminate U|]. rewrite C, V, seq_ad_rfc, seq_nonce_rfc in U by (assumption || lia).
  assert (Fi : fits frag) by (apply fits_record; unfold ENC_RECORD_MAX_LEN in LF; lia).
  assert (Hn : length (rfc_nonce iv k) = 12%nat) by (apply rfc_nonce_length; [exact Li|lia]).
  destruct (aead_decrypt m key (rfc_nonce iv k) frag (rfc_ad k t maj min (zlen frag - 16))) as [p| | |] eqn:O; cbn [rbind] in U; try discriminate U.
  apply open_iff_seal in O; [|exact Lk|exact Hn|exact Fi].
  destruct (RECORD_MAX_LEN <? zlen p) eqn:Ep; [discriminate U|]. unfold record_new in U. rewrite Ep in U. apply Ok_inj in U. injection U as ->.
  assert (Lp : zlen frag - 16 = zlen f) by (rewrite O, sealed_len; lia). rewrite Lp in O. exact O.
Qed.

(** what one record does to the buffer *)
Lemma handle_none rec r r' : handle_record rec r = (Ok None, r') ->
  rc_type rec = HandshakeTy /\ r' = set_buf r (r_buf r ++ rc_fragment rec) /\ get_message (r_buf r') = (Ok None, r_buf r').
Proof.
  unfold handle_record. destruct (rc_type rec); cbv [mret mfail].
  - destruct (rc_fragment rec) as [|b [|]]; try discriminate. destruct (b2z b =? 1); discriminate.
  - destruct (rc_fragment rec) as [|l [|d q]]; try discriminate. destruct (from_code alert_level_code alert_level_all (b2z l)), (from_code alert_desc_code alert_desc_all (b2z d)); discriminate.
  - destruct (rc_fragment rec) as [|b f] eqn:F; [discriminate|]. unfold mbind, r_add_record, r_get_message. cbn [r_buf r_src r_dec r_count r_iv].
    unfold add_record. destruct (get_message (r_buf r ++ b :: f)) as [[[h|]| | |] bb] eqn:G; try discriminate. cbv [mret option_map].
    intros E. apply pair_equal_spec in E as [_ <-]. pose proof (get_message_none _ _ G) as ->. split; [reflexivity|]. split; [destruct r; reflexivity|exact G].
  - discriminate.
Qed.
Lemma handle_message rec r h r' : handle_record rec r = (Ok (Some (HandshakeMessage h)), r') ->
  rc_type rec = HandshakeTy /\ r' = set_buf r (r_buf r') /\ get_message (r_buf r ++ rc_fragment rec) = (Ok (Some h), r_buf r').
Proof.
  unfold handle_record. destruct (rc_type rec); cbv [mret mfail].
  - destruct (rc_fragment rec) as [|b [|]]; try discriminate. destruct (b2z b =? 1); discriminate.
  - destruct (rc_fragment rec) as [|l [|d q]]; try discriminate. destruct (from_code alert_level_code alert_level_all (b2z l)), (from_code alert_desc_code alert_desc_all (b2z d)); discriminate.
  - destruct (rc_fragment rec) as [|b f] eqn:F; [discriminate|]. unfold mbind, r_add_record, r_get_message. cbn [r_buf r_src r_dec r_count r_iv].
    unfold add_record. destruct (get_message (r_buf r ++ b :: f)) as [[[h'|]| | |] bb] eqn:G; try discriminate. cbv [mret option_map].
    intros E. apply pair_equal_spec in E as [E <-]. injection E as ->. split; [reflexivity|]. split; [destruct r; reflexivity|reflexivity].
  - discriminate.
Qed.
Lemma handle_ccs rec r r' : handle_record rec r = (Ok (Some ChangeCipherSpecMessage), r') -> r' = r.
Proof.
  unfold handle_record. destruct (rc_type rec); cbv [mret mfail].
  - destruct (rc_fragment rec) as [|b [|]]; try discriminate. destruct (b2z b =? 1); [|discriminate]. intros E. apply pair_equal_spec in E as [_ <-]. reflexivity.
  - destruct (rc_fragment rec) as [|l [|d q]]; try discriminate. destruct (from_code alert_level_code alert_level_all (b2z l)), (from_code alert_desc_code alert_desc_all (b2z d)); discriminate.
  - destruct (rc_fragment rec) as [|b f] eqn:F; [discriminate|]. unfold mbind, r_add_record, r_get_message. cbn [r_buf r_src r_dec r_count r_iv].
    unfold add_record. destruct (get_message _) as [[[h'|]| | |] bb]; discriminate.
  - discriminate.
Qed.

(** a message read under the server's key: the buffer, then sealed records, nothing in between *)
Definition gathered (m : mode) (key iv : bytes) (k : Z) (r : reader) (h : handshake) (r' : reader) : Prop :=
  exists fs bs, sealed_run key iv k fs bs /\ all_bytes (r_src r) = bs ++ all_bytes (r_src r') /\
    get_message (r_buf r ++ concat fs) = (Ok (Some h), r_buf r') /\ keyed m r' key iv (k + zlen fs) /\ k + zlen fs + left r' <= k + left r.
Lemma pull_gathers m key iv h r' : forall r, forall k, keyed m r key iv k -> k + left r < 2 ^ 64 ->
  pull m r = (Ok (HandshakeMessage h), r') -> gathered m key iv k r h r'.
Proof.
  apply (pull_ind m (fun r => forall k, keyed m r key iv k -> k + left r < 2 ^ 64 -> pull m r = (Ok (HandshakeMessage h), r') -> gathered m key iv k r h r')).
  intros r IH k Kd Hk E. rewrite pull_eq in E. unfold mbind in E.
  destruct (read_record m r) as [[rec| | |] r1] eqn:R; try discriminate E.
  assert (Hk1 : k + 1 < 2 ^ 64).
  { apply read_record_inv in R as (t & maj & min & frag & f & c & _ & _ & _ & _ & Sz & _). unfold left in Hk. lia. }
  destruct (keyed_record_ok _ _ _ _ _ _ _ Kd Hk1 R) as (t & maj & min & p & -> & B & Kd1 & L & Ab).
  destruct (handle_record (Rec t maj min p) r1) as [[[msg|]| | |] r2] eqn:H; try discriminate E.
  - cbv [mret] in E. apply pair_equal_spec in E as [E ->]. apply Ok_inj in E as ->.
    apply handle_message in H as (T & S & G). cbn [rc_type rc_fragment] in T, G. subst t.
    exists [p], (wire HandshakeTy maj min (aead_seal key (rfc_nonce iv k) (rfc_ad k HandshakeTy maj min (zlen p)) p) ++ []).
    split; [repeat constructor|]. assert (Sr : r_src r' = r_src r1) by (rewrite S; reflexivity).
    split; [rewrite app_nil_r, Sr; exact Ab|]. cbn [concat]. rewrite app_nil_r, <- B. split; [exact G|].
    change (zlen [p]) with 1. split; [rewrite S; exact Kd1|]. unfold left in *. rewrite Sr. lia.
  - pose proof (handle_none _ _ _ H) as (T & S & G). cbn [rc_type rc_fragment] in T, S. subst t.
    assert (Sr : r_src r2 = r_src r1) by (rewrite S; reflexivity).
    assert (Kd2 : keyed m r2 key iv (k + 1)) by (rewrite S; exact Kd1).
    destruct (IH _ r1 r2 eq_refl H (k + 1) Kd2 ltac:(unfold left in *; rewrite Sr; lia) E) as (fs & bs & Q1 & Q2 & Q3 & Q4 & Q5).
    exists (p :: fs), (wire HandshakeTy maj min (aead_seal key (rfc_nonce iv k) (rfc_ad k HandshakeTy maj min (zlen p)) p) ++ bs).
    split; [constructor; exact Q1|]. split; [rewrite Ab, <- Sr, Q2, app_assoc; reflexivity|].
    split; [cbn [concat]; rewrite S in Q3; cbn [set_buf r_buf] in Q3; rewrite B, <- app_assoc in Q3; exact Q3|].
    rewrite zlen_cons. replace (k + (1 + zlen fs)) with (k + 1 + zlen fs) by lia. split; [exact Q4|]. unfold left in *. rewrite Sr in Q5. lia.
Qed.
Lemma handshake_gathers m key iv k r h r' : keyed m r key iv k -> k + left r < 2 ^ 64 ->
  read_handshake m r = (Ok h, r') -> gathered m key iv k r h r'.
Proof.
  intros Kd Hk E. unfold read_handshake, mbind in E. destruct (read_message m r) as [[msg| | |] r1] eqn:R; try discriminate E. destruct msg; try discriminate E.
  cbv [mret] in E. apply pair_equal_spec in E as [E ->]. apply Ok_inj in E as ->.
  rewrite read_message_eq in R. destruct (get_message (r_buf r)) as [[[h''|]| | |] b] eqn:G; try discriminate R.
  - apply pair_equal_spec in R as [E <-]. apply Ok_inj in E. injection E as ->.
    exists [], []. split; [constructor|]. split; [reflexivity|]. cbn [concat]. rewrite app_nil_r. split; [exact G|].
    change (zlen []) with 0. rewrite Z.add_0_r. split; [exact Kd|]. unfold left. cbn [set_buf r_src]. lia.
  - pose proof (get_message_none _ _ G) as ->. assert (Er : set_buf r (r_buf r) = r) by (destruct r; reflexivity). rewrite Er in R.
    exact (pull_gathers _ _ _ _ _ _ _ Kd Hk R).
Qed.

(** after the ChangeCipherSpec nothing complete is left in the buffer *)
Lemma pull_ccs m r' : forall r, get_message (r_buf r) = (Ok None, r_buf r) -> pull m r = (Ok ChangeCipherSpecMessage, r') ->
  get_message (r_buf r') = (Ok None, r_buf r').
Proof.
  apply (pull_ind m (fun r => get_message (r_buf r) = (Ok None, r_buf r) -> pull m r = (Ok ChangeCipherSpecMessage, r') -> get_message (r_buf r') = (Ok None, r_buf r'))).
  intros r IH N E. rewrite pull_eq in E. unfold mbind in E.
  destruct (read_record m r) as [[rec| | |] r1] eqn:R; try discriminate E.
  assert (B : r_buf r1 = r_buf r).
  { apply read_record_inv in R as (t & maj & min & frag & f & c & _ & _ & _ & _ & _ & _ & _ & Er). rewrite Er. reflexivity. }
  destruct (handle_record rec r1) as [[[msg|]| | |] r2] eqn:H; try discriminate E.
  - cbv [mret] in E. apply pair_equal_spec in E as [E ->]. apply Ok_inj in E as ->. apply handle_ccs in H as ->. rewrite B. exact N.
  - pose proof (handle_none _ _ _ H) as (_ & _ & G). exact (IH _ _ _ eq_refl H G E).
Qed.
Lemma ccs_nothing_complete m r r' : read_change_cipher_spec m r = (Ok tt, r') -> get_message (r_buf r') = (Ok None, r_buf r').
Proof.
  unfold read_change_cipher_spec, mbind. destruct (read_message m r) as [[msg| | |] r1] eqn:R; try discriminate. destruct msg; try discriminate.
  cbv [mret]. intros E. apply pair_equal_spec in E as [_ <-].
  rewrite read_message_eq in R. destruct (get_message (r_buf r)) as [[[h''|]| | |] b] eqn:G; try discriminate R.
  pose proof (get_message_none _ _ G) as ->. assert (Er : set_buf r (r_buf r) = r) by (destruct r; reflexivity). rewrite Er in R.
  exact (pull_ccs _ _ _ G R).
Qed.

(** ** The Finished message of a completed handshake *)
Theorem finished_ledger m s p g c : zlen (all_bytes s) + 1 < 2 ^ 64 -> client_new m s p g = (Ok tt, c) ->
  exists ss before clear fs bs, reached m s g (Complete ss) /\
    sealed_run (k_server (s_keys ss)) (iv_server (s_keys ss)) 0 fs bs /\
    all_bytes s = before ++ bs ++ all_bytes (r_src (c_reader c)) /\
    finished_from ss clear fs (r_buf (c_reader c)) /\ keyed m (c_reader c) (k_server (s_keys ss)) (iv_server (s_keys ss)) (zlen fs).
Proof.
  intros Room E. pose proof (connected _ _ _ _ _ E) as (ss & RC & An & _ & _ & _ & _ & _ & _).
  destruct (key_block_lengths (s_master ss) (s_cr ss) (sh_random (s_sh ss))) as (_ & K2 & _ & K4). fold (s_keys ss) in K2, K4.
  destruct An as (r4 & Fl & r5 & CC & FN). pose proof Fl as (r1 & r2 & r3 & F1 & F2 & F3 & F4).
  assert (R0 : roomy (reader_new s)).
  { unfold roomy. rewrite left_all. cbn [reader_new r_dec r_count r_src]. split; [reflexivity|]. lia. }
  destruct (roomy_next _ _ _ _ R0 F1) as [Q1 L1], (roomy_next _ _ _ _ Q1 F2) as [Q2 L2], (roomy_next _ _ _ _ Q2 F3) as [Q3 L3], (roomy_next _ _ _ _ Q3 F4) as [Q4 L4].
  destruct Q4 as (_ & Q5 & Q6). destruct (read_ccs_room _ _ _ _ CC) as (L5 & C5 & C6); [exact Q5|change (left (ived_reader r4 (s_keys ss))) with (left r4); cbn [ived_reader r_count]; lia|].
  destruct (read_ccs_keys _ _ _ _ CC) as [_ V]. cbn [ived_reader r_iv] in V.
  pose proof (ccs_nothing_complete _ _ _ CC) as NP.
  assert (L : later (reader_new s) r5).
  { eapply later_trans; [exact L1|]. eapply later_trans; [exact L2|]. eapply later_trans; [exact L3|]. eapply later_trans; [exact L4|exact L5]. }
  pose proof (later_left _ _ L) as Lf. assert (L0 : left (reader_new s) = zlen (all_bytes s)) by apply left_all.
  set (K := s_keys ss) in *.
  assert (Kd : keyed m (decrypting m r5 K) (k_server K) (iv_server K) 0).
  { unfold keyed, decrypting. cbn [r_dec r_iv r_count]. repeat (split; [assumption || reflexivity|]). lia. }
  destruct (handshake_gathers _ _ _ _ _ _ _ Kd ltac:(change (left (decrypting m r5 K)) with (left r5); lia) FN) as (fs & bs & G1 & G2 & G3 & G4 & _).
  destruct L as (before & Lb). cbn [reader_new r_src decrypting r_buf] in Lb, G2, G3.
  exists ss, before, (r_buf r5), fs, bs. split; [exact RC|]. split; [exact G1|]. split; [rewrite Lb, G2; reflexivity|]. split; [|exact G4].
  assert (W : wf_handshake (s_server_fin ss)) by (destruct (fin_wf (s_master ss) "server finished" (s_msgs ss ++ [s_client_fin ss])) as (W & _); exact W).
  apply accepted_reserialise in G3 as (w & W1 & W2); [|discriminate|discriminate].
  change (finished (expected_server ss)) with (s_server_fin ss) in W1.
  rewrite (hs_write_enc _ W : tls_write i_handshake (s_server_fin ss) = _) in W1. apply Ok_inj in W1. subst w.
  split; [exact W2|]. destruct (Nat.ltb_spec (length (r_buf r5)) 16) as [Hl|Hl]; [exact Hl|exfalso].
  assert (L16 : length (e_handshake (s_server_fin ss)) = 16%nat).
  { unfold e_handshake, s_server_fin. cbn [e_hs_body hs_type]. rewrite !app_length. unfold sp_vec. rewrite app_length, be_length, verify_data_length. reflexivity. }
  assert (P : r_buf r5 = e_handshake (s_server_fin ss) ++ skipn 16 (r_buf r5)).
  { rewrite <- (firstn_skipn 16 (r_buf r5)) at 1. f_equal.
    assert (X : firstn 16 (r_buf r5 ++ concat fs) = firstn 16 (e_handshake (s_server_fin ss) ++ r_buf (c_reader c))) by (rewrite W2; reflexivity).
    rewrite !firstn_app, L16, Nat.sub_diag, (firstn_all2 (e_handshake _)) in X by lia.
    replace (16 - length (r_buf r5))%nat with 0%nat in X by lia. cbn [firstn] in X. rewrite !app_nil_r in X. exact X. }
  rewrite P, (get_message_enc _ _ W) in NP. discriminate NP.
Qed.

(** ** What may be left over when the server seals exactly one Finished *)
Lemma incomplete4 a b c d rest : zlen rest < b2z b * 65536 + b2z c * 256 + b2z d ->
  get_message (a :: b :: c :: d :: rest) = (Ok None, a :: b :: c :: d :: rest).
Proof.
  intros H. set (n := be_val [b; c; d]).
  assert (V : n = b2z b * 65536 + b2z c * 256 + b2z d) by (unfold n; cbn; lia).
  assert (N : 0 <= n < 2 ^ 24) by (rewrite V; pose proof (b2z_range b); pose proof (b2z_range c); pose proof (b2z_range d); lia).
  assert (E : be 3 n = [b; c; d]) by (unfold n; apply (be_be_val [b; c; d])).
  change (a :: b :: c :: d :: rest) with (a :: [b; c; d] ++ rest). rewrite <- E. apply get_message_incomplete; [exact N|lia].
Qed.
Ltac big4 := apply incomplete4; unfold zlen; cbn [length];
  repeat match goal with |- context [b2z ?x] => is_var x; pose proof (b2z_range x); let z := fresh in set (z := b2z x) in *; clearbody z end;
  change (b2z x14) with 20; change (b2z x0c) with 12; change (b2z x00) with 0; lia.
Lemma overlap v clear extra : length v = 12%nat -> (length clear < 16)%nat -> clear ++ ([x14; x00; x00; x0c] ++ v) = ([x14; x00; x00; x0c] ++ v) ++ extra ->
  get_message extra = (Ok None, extra) \/
  exists n, (3 <= n <= 6)%nat /\ length clear = (16 - n)%nat /\ skipn (12 - n) v = firstn n ([x14; x00; x00; x0c] ++ v).
Proof.
  intros Lv Lc E. do 12 (destruct v as [|? v]; [discriminate Lv|]). destruct v; [|discriminate Lv]. clear Lv.
  cbn [app] in E.
  destruct clear as [|? clear]; [left; cbn [app] in E; injection E as <-; reflexivity|].
  do 3 (destruct clear as [|? clear]; [cbn [app] in E; injection E; intros; subst; left; (discriminate || reflexivity)|]).
  do 6 (destruct clear as [|? clear]; [cbn [app] in E; injection E; intros; subst; try discriminate; left; big4|]).
  destruct clear as [|? clear]; [right; exists 6%nat; split; [lia|]; split; [reflexivity|]; cbn [app] in E; injection E; intros; subst; reflexivity|].
  destruct clear as [|? clear]; [right; exists 5%nat; split; [lia|]; split; [reflexivity|]; cbn [app] in E; injection E; intros; subst; reflexivity|].
  destruct clear as [|? clear]; [right; exists 4%nat; split; [lia|]; split; [reflexivity|]; cbn [app] in E; injection E; intros; subst; reflexivity|].
  destruct clear as [|? clear]; [right; exists 3%nat; split; [lia|]; split; [reflexivity|]; cbn [app] in E; injection E; intros; subst; reflexivity|].
  do 2 (destruct clear as [|? clear]; [cbn [app] in E; injection E; intros; subst; try discriminate; left; big4|]).
  cbn [length] in Lc. lia.
Qed.

Lemma fin_shape ss : e_handshake (s_server_fin ss) = [x14; x00; x00; x0c] ++ expected_server ss.
Proof.
  unfold e_handshake, s_server_fin. cbn [hs_type e_hs_body]. unfold sp_vec, zlen. rewrite verify_data_length. reflexivity.
Qed.
Lemma run_length key iv k fs bs : sealed_run key iv k fs bs -> zlen fs <= zlen bs.
Proof.
  intros SR. induction SR as [|k f maj min fs bs SR IH]; [reflexivity|]. rewrite zlen_cons, zlen_app. unfold wire. rewrite zlen_app.
  rewrite zlen_cons. match goal with |- context [zlen [?a; ?b] ] => pose proof (zlen_nonneg [a; b]) end.
  match goal with |- context [zlen (be ?a ?b ++ ?c)] => pose proof (zlen_nonneg (be a b ++ c)) end. lia.
Qed.
Theorem reads_safe_unless m s p g c sizes : zlen (all_bytes s) + 1 < 2 ^ 64 -> client_new m s p g = (Ok tt, c) ->
  exists ss before fs bs, reached m s g (Complete ss) /\
    sealed_run (k_server (s_keys ss)) (iv_server (s_keys ss)) 0 fs bs /\
    all_bytes s = before ++ bs ++ all_bytes (r_src (c_reader c)) /\
    (Forall fine (fst (client_reads m sizes c)) \/
     alien (r_src (c_reader c)) (k_server (s_keys ss)) (iv_server (s_keys ss)) (zlen fs) \/
     concat fs <> e_handshake (s_server_fin ss) \/
     exists n, (3 <= n <= 6)%nat /\ skipn (12 - n) (expected_server ss) = firstn n (e_handshake (s_server_fin ss))).
Proof.
  intros Room E. destruct (finished_ledger _ _ _ _ _ Room E) as (ss & before & clear & fs & bs & RC & SR & Ab & (L1 & L2) & Kd).
  exists ss, before, fs, bs. split; [exact RC|]. split; [exact SR|]. split; [exact Ab|].
  destruct (list_eq_dec Byte.byte_eq_dec (concat fs) (e_handshake (s_server_fin ss))) as [X|X]; [|auto].
  rewrite X, fin_shape in L1. destruct (overlap (expected_server ss) clear _ (verify_data_length _ _ _) L2 L1) as [N|(n & Hn & _ & O)].
  - assert (Rm : zlen fs + left (c_reader c) + 1 < 2 ^ 64).
    { rewrite left_all. rewrite Ab, !zlen_app in Room. pose proof (zlen_nonneg before).
      pose proof (run_length _ _ _ _ _ SR).
      lia. }
    destruct (reads_safe m _ _ sizes c _ Kd N Rm) as [A|F]; auto.
  - right. right. right. exists n. split; [exact Hn|]. rewrite fin_shape. exact O.
Qed.

(** ** A Finished message whose first bytes are in the clear *)
Lemma ccs_passes m r P rest : r_dec r = None -> r_buf r = [] -> 0 <= r_count r < 2 ^ 32 -> legal_fragment P ->
  get_message P = (Ok None, P) ->
  stream (r_src r) = e_record HandshakeTy P ++ e_record ChangeCipherSpecTy [x01] ++ rest ->
  exists r', read_change_cipher_spec m r = (Ok tt, r') /\ r_dec r' = None /\ r_iv r' = r_iv r /\ r_buf r' = P /\ stream (r_src r') = rest.
Proof.
  intros D B C [L0 L] G S. destruct (wire_step m r HandshakeTy x03 x03 P P _ S) as (s1 & S1 & _ & R1); try lia.
  { rewrite D. reflexivity. }
  set (r1 := set_buf (set_count (set_src r s1) (r_count r + 1)) P).
  destruct (wire_step m r1 ChangeCipherSpecTy x03 x03 [x01] [x01] rest) as (s2 & S2 & _ & R2); try (cbn; lia).
  { exact S1. } { cbn [r1 set_buf set_count set_src r_dec]. rewrite D. reflexivity. }
  assert (G1 : get_message (r_buf r1) = (Ok None, r_buf r1)) by exact G.
  assert (X : read_message m r = read_message m r1).
  { rewrite (read_message_eq m r), B. change (get_message []) with (@Ok (option handshake) None, @nil byte). cbv iota beta.
    rewrite <- B, set_buf_id, pull_eq. unfold mbind at 1. rewrite R1. unfold mbind at 1.
    change (Rec HandshakeTy x03 x03 P) with (hs_rec x03 x03 P). rewrite handle_hs by (intros ->; cbn in L0; lia).
    change (r_buf (set_count (set_src r s1) (r_count r + 1))) with (r_buf r). rewrite B. cbn [app]. rewrite G. cbn [option_map].
    rewrite (read_message_eq m r1), G1, set_buf_id. reflexivity. }
  destruct (ccs_validated m r1 _ _ G1 R2 eq_refl) as [[_ E]|[N _]]; [|exfalso; apply N; reflexivity].
  eexists. unfold read_change_cipher_spec, mbind. rewrite X, E. split; [reflexivity|]. split; [exact D|]. split; [reflexivity|].
  split; [reflexivity|exact S2].
Qed.
Lemma split_answers m s ss fs1 P fs2 rest : good_session ss -> first_flight ss fs1 -> Forall legal_fragment (P :: fs2) -> fs2 <> [] ->
  P ++ concat fs2 = e_handshake (s_server_fin ss) ->
  stream s = concat (map (e_record HandshakeTy) fs1) ++ e_record HandshakeTy P ++ e_record ChangeCipherSpecTy [x01] ++
    sealed_stream (k_server (s_keys ss)) (iv_server (s_keys ss)) 0 HandshakeTy fs2 ++ rest ->
  exists r1 r', server_flight m (reader_new s) (s_sh ss) (s_certs ss) (s_ske ss) r1 /\ answered m s ss r' /\ stream (r_src r') = rest.
Proof.
  intros G F1 Lg Ne E S. inversion Lg as [|? ? LP L2]; subst.
  destruct (first_delivered m (reader_new s) ss fs1 _ F1 G eq_refl eq_refl eq_refl S) as (r1 & Fl & D1 & _ & B1 & S1 & C1).
  destruct (fin_wf (s_master ss) "server finished" (s_msgs ss ++ [s_client_fin ss])) as (W & L16 & _).
  change (finished _) with (s_server_fin ss) in W, L16.
  assert (Q : concat fs2 <> []).
  { destruct fs2 as [|f fs2]; [contradiction|]. inversion L2 as [|? ? [X _] _]; subst. destruct f; [cbn in X; lia|discriminate]. }
  pose proof (get_message_prefix _ _ _ W (eq_sym E) Q) as N.
  destruct (ccs_passes m (ived_reader r1 (s_keys ss)) P _ D1 B1 C1 LP N S1) as (r2 & R2 & D2 & I2 & B2 & S2).
  destruct (key_block_lengths (s_master ss) (s_cr ss) (sh_random (s_sh ss))) as (_ & K2 & _ & K4).
  assert (K : keyed m (decrypting m r2 (s_keys ss)) (k_server (s_keys ss)) (iv_server (s_keys ss)) 0).
  { split; [reflexivity|]. split; [exact I2|]. split; [reflexivity|]. split; [exact K2|]. split; [exact K4|lia]. }
  pose proof (fragments_bound fs2 L2) as Bf. assert (zlen (concat fs2) <= 16).
  { rewrite <- L16, <- E, zlen_app. pose proof (zlen_nonneg P). lia. }
  destruct (sealed_yields m _ _ HandshakeTy fs2 (decrypting m r2 (s_keys ss)) 0 rest K S2 L2 ltac:(lia)) as (r3 & Y & _ & S3 & _).
  destruct (reassembly m x03 x03 [s_server_fin ss] ltac:(constructor; [exact W|constructor]) fs2 (decrypting m r2 (s_keys ss)) r3 P) as (fs3 & r4 & b4 & R & Y4 & L4 & E4).
  - eapply Forall_impl; [|exact L2]; exact legal_nonempty.
  - exact B2.
  - cbn [map concat]. rewrite app_nil_r. exact E.
  - exact Y.
  - apply app_eq_nil in E4 as [-> E4]. destruct fs3 as [|f fs3]; [|exfalso; inversion L4; subst; destruct f; [congruence|discriminate E4]].
    inversion Y4; subst.
    cbn [length map] in R. destruct (reads_cons _ _ _ _ _ _ R) as (r5 & R5 & R6). cbn [reads map] in R6. apply pair_equal_spec in R6 as [_ ->].
    exists r1, (set_buf r3 []). split; [exact Fl|]. split; [|reflexivity].
    exists r1. split; [exact Fl|]. exists r2. split; [exact R2|]. apply read_handshake_message. exact R5.
Qed.
(** a server that sends any proper part of its Finished message before switching to its keys is not noticed *)
Theorem split_connects m sv g j ss s p fs1 P fs2 rest : wf_server sv -> (32 <= length g)%nat -> first_accepted (skipn 32 g) j ->
  used_scalar (draw (skipn 32 g) j) <> 0 ->
  agreed sv (firstn 32 g) (nmul (Z.to_nat (used_scalar (draw (skipn 32 g) j))) Gpt) ss ->
  first_flight ss fs1 -> Forall legal_fragment (P :: fs2) -> fs2 <> [] -> P ++ concat fs2 = e_handshake (s_server_fin ss) ->
  stream s = concat (map (e_record HandshakeTy) fs1) ++ e_record HandshakeTy P ++ e_record ChangeCipherSpecTy [x01] ++
    sealed_stream (k_server (s_keys ss)) (iv_server (s_keys ss)) 0 HandshakeTy fs2 ++ rest ->
  healthy (writer_new p) ->
  exists c, client_new m s p g = (Ok tt, c) /\ reached m s g (Complete ss) /\ stream (r_src (c_reader c)) = rest.
Proof.
  intros W Lg F N A F1 L Ne EP S H. assert (Lc : length (firstn 32 g) = 32%nat) by (rewrite firstn_length; lia).
  pose proof (exchange_agrees m sv _ j ss _ W F N A) as K. pose proof (agreed_good sv _ j _ ss W Lc F N A) as G.
  destruct (split_answers m s ss fs1 P fs2 rest G F1 L Ne EP S) as (r1 & r' & Fl & An & Sr).
  assert (R : reached m s g (Complete ss)).
  { destruct A as (sx & sy & cx & cy & zx & zy & _ & _ & _ & ->). split; [exact Lg|]. split; [reflexivity|]. split; [exists r1; exact Fl|].
    cbn [s_sh s_ske s_cke s_pms] in *. do 3 (split; [reflexivity|]). eauto. }
  destruct (connects m s p g ss r' H R An) as (c & E & Er & _). exists c. subst r'. auto.
Qed.
Lemma split_run m : exists s g c ss before P Q, clean s /\ client_new m s [] g = (Ok tt, c) /\ reached m s g (Complete ss) /\
  length P = 8%nat /\ P ++ Q = e_handshake (s_server_fin ss) /\
  stream s = before ++ e_record HandshakeTy P ++ e_record ChangeCipherSpecTy [x01] ++
    sealed_stream (k_server (s_keys ss)) (iv_server (s_keys ss)) 0 HandshakeTy [Q].
Proof.
  destruct (server_agrees plain_server (firstn 32 one_tape) 1 plain_wf ltac:(lia)) as (ss & A).
  set (bs := concat (map e_handshake [server_hello_msg (s_sh ss); certificate (s_certs ss); server_key_exchange (s_ske ss); server_hello_done])).
  destruct (fragments_legal bs) as (E1 & L1 & _). set (fs1 := chunks (Z.to_nat RECORD_MAX_LEN) bs) in *.
  destruct (fin_wf (s_master ss) "server finished" (s_msgs ss ++ [s_client_fin ss])) as (_ & L16 & _). change (finished _) with (s_server_fin ss) in L16.
  assert (Lf : length (e_handshake (s_server_fin ss)) = 16%nat) by (unfold zlen in L16; lia).
  set (P := firstn 8 (e_handshake (s_server_fin ss))). set (Q := skipn 8 (e_handshake (s_server_fin ss))).
  assert (LP : length P = 8%nat) by (unfold P; rewrite firstn_length, Lf; reflexivity).
  assert (LQ : length Q = 8%nat) by (unfold Q; rewrite skipn_length, Lf; reflexivity).
  assert (PQ : P ++ Q = e_handshake (s_server_fin ss)) by apply firstn_skipn.
  set (bs2 := concat (map (e_record HandshakeTy) fs1) ++ e_record HandshakeTy P ++ e_record ChangeCipherSpecTy [x01] ++
    sealed_stream (k_server (s_keys ss)) (iv_server (s_keys ss)) 0 HandshakeTy [Q]).
  pose proof (split_connects m plain_server one_tape 0 ss (source bs2) [] fs1 P [Q] [] plain_wf ltac:(cbn; lia) one_accepted) as H.
  rewrite one_scalar in H. specialize (H ltac:(discriminate) A (conj L1 E1)).
  destruct H as (c & E & R & _).
  - constructor; [|constructor; [|constructor]]; unfold legal_fragment, zlen; [rewrite LP|rewrite LQ]; lia.
  - discriminate.
  - cbn [concat]. rewrite app_nil_r. exact PQ.
  - rewrite source_stream. unfold bs2. rewrite app_nil_r. reflexivity.
  - constructor.
  - exists (source bs2), one_tape, c, ss, (concat (map (e_record HandshakeTy) fs1)), P, Q. split; [apply source_clean|].
    do 4 (split; [assumption|]). apply source_stream.
Qed.
