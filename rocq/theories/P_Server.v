(** A server program for every service (C79): it reads the client's bytes, and answers. *)
From Verif Require Import Spec_Talk2 P_Util P_Codec P_RecordW P_RecordR P_Record P_Record2 P_Aead P_Fp NT_P256 NT_Order P_Points P_Scalar P_Client P_Client2 P_Client3 P_App2 P_Ops P_Talk3 P_Talk4.
From Coq Require Import ZifyBool ZifyNat ZifyN.
Local Open Scope list_scope.
Local Open Scope Z_scope.
#[local] Opaque aead_seal aead_decrypt aead_encrypt compute_keys SHA256 HMAC PRF nmul.

Definition same (a b : bytes) : bool := if list_eq_dec Byte.byte_eq_dec a b then true else false.
Lemma same_refl a : same a a = true.
Proof. unfold same. destruct (list_eq_dec _ a a); congruence. Qed.
Definition pieces_of (b : bytes) : list bytes := chunks (Z.to_nat RECORD_MAX_LEN) b.

(** ** The records of the client *)
Definition item_type (b : byte) : option content_type :=
  if b2z b =? 23 then Some ApplicationDataTy else if b2z b =? 21 then Some AlertTy else None.
Definition record_item (key iv : bytes) (k : Z) (t : byte) (f : bytes) : option (content_type * bytes) :=
  match item_type t with
  | Some ty => match aead_decrypt Release key (rfc_nonce iv k) f (rfc_ad k ty x03 x03 (zlen f - 16)) with Ok p => Some (ty, p) | _ => None end
  | None => None
  end.
Fixpoint hear (fuel : nat) (key iv : bytes) (k : Z) (bs : bytes) : list (content_type * bytes) :=
  match fuel with
  | O => []
  | Datatypes.S fuel =>
      match bs with
      | t :: _ :: _ :: h :: l :: rest =>
          let n := Z.to_nat (be_val [h; l]) in
          if (n <=? length rest)%nat then
            match record_item key iv k t (firstn n rest) with Some i => i :: hear fuel key iv (k + 1) (skipn n rest) | None => [] end
          else []
      | _ => []
      end
  end.
Lemma hear_grows key iv : forall f f' bs more k, (f <= f')%nat -> exists u, hear f' key iv k (bs ++ more) = hear f key iv k bs ++ u.
Proof.
  induction f as [|f IH]; intros f' bs more k L; [eexists; reflexivity|]. destruct f' as [|f']; [lia|].
  destruct bs as [|t [|v1 [|v2 [|h [|l rest]]]]]; try (eexists; reflexivity). cbn [app hear]. cbv zeta.
  destruct (Nat.leb_spec (Z.to_nat (be_val [h; l])) (length rest)) as [Q|Q]; [|eexists; reflexivity].
  rewrite app_length. destruct (Nat.leb_spec (Z.to_nat (be_val [h; l])) (length rest + length more)) as [_|]; [|lia].
  rewrite firstn_app, skipn_app. replace (Z.to_nat (be_val [h; l]) - length rest)%nat with 0%nat by lia. rewrite firstn_O, app_nil_r. cbn [skipn].
  destruct (record_item key iv k t _) as [i|]; [|eexists; reflexivity].
  destruct (IH f' (skipn (Z.to_nat (be_val [h; l])) rest) more (k + 1) ltac:(lia)) as (u & ->). exists u. reflexivity.
Qed.
Lemma hear_record key iv k t f : length key = 32%nat -> length iv = 12%nat -> 0 <= k < 2 ^ 64 -> legal_item (t, f) ->
  record_item key iv k (z2b (rfc_content_type t)) (aead_seal key (rfc_nonce iv k) (rfc_ad k t x03 x03 (zlen f)) f) = Some (t, f).
Proof.
  intros Lk Li K L. unfold record_item.
  assert (T : item_type (z2b (rfc_content_type t)) = Some t) by (destruct L as [[E _]|E]; cbn [fst] in E; [subst t|injection E as -> ->]; reflexivity).
  rewrite T. replace (zlen (aead_seal key (rfc_nonce iv k) (rfc_ad k t x03 x03 (zlen f)) f) - 16) with (zlen f) by (unfold zlen; rewrite aead_seal_length; lia).
  rewrite open_seal; [reflexivity|exact Lk|apply rfc_nonce_length; lia|]. apply fits_record.
  destruct L as [[_ [_ L]]|E]; cbn [snd] in *; [lia|injection E as -> ->; cbn; lia].
Qed.
Lemma item_short t f : legal_item (t, f) -> zlen f <= 16384.
Proof. intros [[_ [_ L]]|E]; [exact L|injection E as -> ->; cbn; lia]. Qed.
Lemma hear_items key iv : length key = 32%nat -> length iv = 12%nat -> forall it k f, Forall legal_item it -> 0 <= k -> k + zlen it < 2 ^ 64 ->
  (length (sealed_items key iv k it) <= f)%nat -> hear f key iv k (sealed_items key iv k it) = it.
Proof.
  intros Lk Li. induction it as [|[t p] it IH]; intros k f F K B Lf; [destruct f; reflexivity|].
  inversion F as [|? ? L F']; subst. rewrite zlen_cons in B. pose proof (zlen_nonneg it).
  cbn [sealed_items] in *. unfold sealed_record, e_record, wire in *. set (z := aead_seal _ _ _ p) in *.
  assert (Lz : zlen z = zlen p + 16) by (unfold z, zlen; rewrite aead_seal_length; lia).
  destruct f as [|f]; [cbn [app length] in Lf; lia|].
  change (be 2 (zlen z)) with [z2b (zlen z / 256 ^ 1); z2b (zlen z / 256 ^ 0)] in *. cbn [app hear]. cbv zeta.
  assert (V : be_val [z2b (zlen z / 256 ^ 1); z2b (zlen z / 256 ^ 0)] = zlen z).
  { change (be_val (be 2 (zlen z)) = zlen z). rewrite be_val_be. apply Z.mod_small. pose proof (item_short _ _ L). pose proof (zlen_nonneg p). change (256 ^ Z.of_nat 2) with 65536. lia. }
  rewrite V. replace (Z.to_nat (zlen z)) with (length z) by (unfold zlen; lia). rewrite app_length.
  destruct (Nat.leb_spec (length z) (length z + length (sealed_items key iv (k + 1) it))) as [_|]; [|lia].
  rewrite firstn_app, skipn_app, Nat.sub_diag, firstn_O, app_nil_r, firstn_all, skipn_all. cbn [skipn app].
  unfold z at 1. rewrite hear_record by (assumption || lia). f_equal.
  apply IH; [assumption|lia|lia|]. cbn [app length] in Lf. rewrite app_length in Lf. lia.
Qed.

(** ** The program *)
Definition px (P : pt) : Fp := match P with EC_Abs.Aff x _ => x | EC_Abs.Inf _ => f0 end.
Definition py (P : pt) : Fp := match P with EC_Abs.Aff _ y => y | EC_Abs.Inf _ => f0 end.
Definition session_of (sv : server) (cr : bytes) (cx cy : Fp) : session :=
  let S := nmul (Z.to_nat (sv_secret sv)) Gpt in
  Session cr (sv_hello sv) (sv_certs sv) (e_ske (Ske (sv_curve sv) (sec1 (px S) (py S)) (sv_sig sv)))
    (x41 :: sec1 cx cy) (be 32 (fval (px (nmul (Z.to_nat (sv_secret sv)) (Aff cx cy))))).
Lemma agreed_session sv cr P ss : agreed sv cr P ss -> exists cx cy, ss = session_of sv cr cx cy.
Proof.
  intros (sx & sy & cx & cy & zx & zy & Es & -> & Ez & ->). exists cx, cy. unfold session_of. cbv zeta. rewrite Es, Ez. reflexivity.
Qed.
Definition first_pieces (ss : session) : list bytes :=
  pieces_of (concat (map e_handshake [server_hello_msg (s_sh ss); certificate (s_certs ss); server_key_exchange (s_ske ss); server_hello_done])).
Definition second_pieces (ss : session) : list bytes := pieces_of (e_handshake (s_server_fin ss)).
Definition answer_of (ss : session) (d : bytes) : bytes :=
  sealed_stream (k_server (s_keys ss)) (iv_server (s_keys ss)) (zlen (second_pieces ss)) ApplicationDataTy (map (fun b => [b]) d).
Definition heard_of (ss : session) (bs : bytes) : list (content_type * bytes) :=
  hear (length bs) (k_client (s_keys ss)) (iv_client (s_keys ss)) 1 bs.
Definition number (a : nat) (bs : bytes) : Z := be_val (firstn 32 (skipn a bs)).
Definition serve (sv : server) (service : speech -> bytes) (out : bytes) : bytes :=
  if (74 <=? length out)%nat then
    concat (map (e_record HandshakeTy) (first_pieces (session_of sv [] f0 f0))) ++
    (if (192 <=? length out)%nat then
       let ss := session_of sv (firstn 32 (skipn 11 out)) (toF (number 85 out)) (toF (number 117 out)) in
       if same (firstn 192 out) (stage_out (Complete ss)) then
         e_record ChangeCipherSpecTy [x01] ++
         sealed_stream (k_server (s_keys ss)) (iv_server (s_keys ss)) 0 HandshakeTy (second_pieces ss) ++
         answer_of ss (service (says (heard_of ss (skipn 192 out))))
       else []
     else [])
  else [].

(** ** It is causal *)
Lemma sealed_app key iv t : forall a b k, sealed_stream key iv k t (a ++ b) = sealed_stream key iv k t a ++ sealed_stream key iv (k + zlen a) t b.
Proof.
  induction a as [|f a IH]; intros b k; [rewrite Z.add_0_r; reflexivity|]. cbn [app sealed_stream]. rewrite IH, app_assoc, zlen_cons, Z.add_assoc, (Z.add_comm k 1), (Z.add_comm 1 k). reflexivity.
Qed.
Lemma firstn_kept {A} n (a b : list A) : (n <= length a)%nat -> firstn n (a ++ b) = firstn n a.
Proof. intros L. rewrite firstn_app. replace (n - length a)%nat with 0%nat by lia. rewrite firstn_O, app_nil_r. reflexivity. Qed.
Lemma skipn_kept {A} n (a b : list A) : (n <= length a)%nat -> skipn n (a ++ b) = skipn n a ++ b.
Proof. intros L. rewrite skipn_app. replace (n - length a)%nat with 0%nat by lia. reflexivity. Qed.
Lemma inner_kept {A} i n (a b : list A) : (i + n <= length a)%nat -> firstn n (skipn i (a ++ b)) = firstn n (skipn i a).
Proof. intros L. rewrite skipn_kept by lia. apply firstn_kept. rewrite skipn_length. lia. Qed.
Lemma serve_causal sv service : causal_service service -> causal_server (serve sv service).
Proof.
  intros CS a b. unfold serve. rewrite app_length.
  destruct (Nat.leb_spec 74 (length a)) as [L|L]; [|eexists; reflexivity].
  destruct (Nat.leb_spec 74 (length a + length b)) as [_|]; [|lia].
  destruct (Nat.leb_spec 192 (length a)) as [L2|L2]; [|rewrite (app_nil_r (concat (map (e_record HandshakeTy) (first_pieces (session_of sv [] f0 f0))))); eexists; reflexivity].
  destruct (Nat.leb_spec 192 (length a + length b)) as [_|]; [|lia].
  unfold number. rewrite !inner_kept, firstn_kept, skipn_kept by lia. cbv zeta.
  match goal with |- context [stage_out (Complete ?s)] => set (ss := s) end.
  destruct (same (firstn 192 a) (stage_out (Complete ss))); [|exists []; rewrite !app_nil_r; reflexivity].
  unfold heard_of. destruct (hear_grows (k_client (s_keys ss)) (iv_client (s_keys ss)) (length (skipn 192 a)) (length (skipn 192 a ++ b)) (skipn 192 a) b 1) as (u & ->).
  { rewrite app_length. lia. }
  rewrite says_app. destruct (CS (says (hear (length (skipn 192 a)) (k_client (s_keys ss)) (iv_client (s_keys ss)) 1 (skipn 192 a))) (says u)) as (t & ->).
  unfold answer_of. rewrite map_app, sealed_app. eexists. rewrite <- !app_assoc. reflexivity.
Qed.

(** ** It finds its way in the client's bytes *)
Lemma cut_at {A} a b (pre x post : list A) : length pre = a -> length x = b -> firstn b (skipn a (pre ++ x ++ post)) = x.
Proof.
  intros <- <-. rewrite skipn_app, skipn_all, Nat.sub_diag. cbn [app skipn]. rewrite firstn_app, firstn_all, Nat.sub_diag, firstn_O. apply app_nil_r.
Qed.
Lemma hello_shape cr : exists pre post, length pre = 11%nat /\ flight_hello cr = pre ++ cr ++ post.
Proof.
  exists ([x16; x03; x03] ++ be 2 (zlen (e_handshake (offer cr))) ++ [x01] ++ be 3 (zlen (e_hs_body (offer cr))) ++ [x03; x03]).
  eexists. split; [rewrite !app_length, !be_length; reflexivity|]. reflexivity.
Qed.
Lemma exchange_shape ss : length (s_cke ss) = 66%nat ->
  exists pre post, length pre = 9%nat /\ flight_exchange ss = pre ++ s_cke ss ++ post /\ length (flight_exchange ss) = 81%nat.
Proof.
  intros L. exists ([x16; x03; x03] ++ be 2 (zlen (e_handshake (client_key_exchange (s_cke ss)))) ++ [x10] ++ be 3 (zlen (s_cke ss))).
  exists (e_record ChangeCipherSpecTy [x01]). split; [rewrite !app_length, !be_length; reflexivity|]. split.
  - unfold flight_exchange, e_record at 1, wire, e_handshake at 2, sp_vec. cbn [e_hs_body]. rewrite <- !app_assoc. reflexivity.
  - unfold flight_exchange. rewrite app_length, !record_length, message_length. cbn [e_hs_body length]. lia.
Qed.
Lemma number_be x pre post a : length pre = a -> toF (number a (pre ++ be 32 (fval x) ++ post)) = x.
Proof.
  intros L. unfold number. rewrite (cut_at a 32 pre (be 32 (fval x)) post L (be_length _ _)), be_val_be, Z.mod_small; [apply toF_fval|].
  pose proof (fval_range x) as R. split; [apply R|]. eapply Z.lt_trans; [apply R|]. reflexivity.
Qed.
Lemma session_found sv cr cx cy rest : length cr = 32%nat -> let ss := session_of sv cr cx cy in let out := stage_out (Complete ss) ++ rest in
  length (stage_out (Complete ss)) = 192%nat /\ session_of sv (firstn 32 (skipn 11 out)) (toF (number 85 out)) (toF (number 117 out)) = ss.
Proof.
  intros L ss out. assert (L66 : length (s_cke ss) = 66%nat) by (cbn [ss session_of s_cke]; unfold sec1; cbn [length]; rewrite app_length, !be_length; reflexivity).
  destruct (exchange_shape ss L66) as (pre2 & post2 & Lp2 & E2 & Le).
  destruct (hello_shape cr) as (pre & post & Lp & E). assert (Lh : length (flight_hello cr) = 74%nat) by (apply hello_length; exact L).
  split.
  { cbn [stage_out]. rewrite !app_length, Le. change (s_cr ss) with cr. rewrite Lh. unfold flight_finished. rewrite sealed_length, message_length.
    cbn [e_hs_body s_client_fin]. unfold verify_data. rewrite PRF_length. reflexivity. }
  assert (A1 : firstn 32 (skipn 11 out) = cr).
  { unfold out. cbn [stage_out]. change (s_cr ss) with cr. rewrite E, <- !app_assoc. apply cut_at; assumption. }
  assert (O : out = (flight_hello cr ++ pre2 ++ [x41; x04]) ++ be 32 (fval cx) ++ be 32 (fval cy) ++ post2 ++ flight_finished ss ++ rest).
  { unfold out. cbn [stage_out]. change (s_cr ss) with cr. rewrite E2. cbn [ss session_of s_cke]. unfold sec1. rewrite <- !app_assoc. cbn [app]. rewrite <- !app_assoc. reflexivity. }
  assert (A2 : toF (number 85 out) = cx).
  { rewrite O. apply number_be. rewrite !app_length, Lh, Lp2. reflexivity. }
  assert (A3 : toF (number 117 out) = cy).
  { rewrite O, (app_assoc _ (be 32 (fval cx))). apply number_be. rewrite !app_length, Lh, Lp2, be_length. reflexivity. }
  rewrite A1, A2, A3. reflexivity.
Qed.
Lemma bytes_count d : zlen (map (fun b : byte => [b]) d) = zlen d.
Proof. unfold zlen. rewrite map_length. reflexivity. Qed.
Lemma bytes_concat (d : bytes) : concat (map (fun b => [b]) d) = d.
Proof. induction d as [|b d IH]; [reflexivity|]. cbn [map concat app]. rewrite IH. reflexivity. Qed.
Lemma serve_tls sv service : causal_service service -> (forall w, 16 + zlen (service w) < 2 ^ 64) -> tls_server sv service (serve sv service).
Proof.
  intros CS Bd. split; [apply serve_causal; exact CS|]. intros cr L.
  exists (first_pieces (session_of sv [] f0 f0)). eexists. split.
  { unfold serve. rewrite (hello_length cr L). cbn [Nat.leb]. reflexivity. }
  intros P ss A. destruct (agreed_session sv cr P ss A) as (cx & cy & ->). set (ss := session_of sv cr cx cy).
  split.
  { destruct (fragments_legal (concat (map e_handshake [server_hello_msg (s_sh ss); certificate (s_certs ss); server_key_exchange (s_ske ss); server_hello_done]))) as (E & F & _).
    split; [exact F|exact E]. }
  destruct (fragments_legal (e_handshake (s_server_fin ss))) as (E2 & F2 & B2). exists (second_pieces ss). split; [split; [exact F2|exact E2]|].
  intros it F B. exists (map (fun b => [b]) (service (says it))). split; [|split; [|split]].
  - clear. induction (service (says it)) as [|b d IH]; cbn [map]; constructor; auto. cbn. lia.
  - rewrite bytes_count. specialize (Bd (says it)).
    assert (Lf : zlen (e_handshake (s_server_fin ss)) = 16) by (unfold zlen; rewrite message_length; cbn [e_hs_body s_server_fin]; unfold verify_data; rewrite PRF_length; reflexivity).
    rewrite Lf in B2. unfold second_pieces, pieces_of. clear - B2 Bd. cbv zeta in B2. lia.
  - apply bytes_concat.
  - destruct (session_found sv cr cx cy (sealed_items (k_client (s_keys ss)) (iv_client (s_keys ss)) 1 it) L) as (Ls & Fs). fold ss in Ls, Fs.
    set (out := stage_out (Complete ss) ++ _) in *. unfold serve. rewrite Fs.
    assert (Lo : length out = (192 + length (sealed_items (k_client (s_keys ss)) (iv_client (s_keys ss)) 1 it))%nat) by (unfold out; rewrite app_length, Ls; reflexivity).
    destruct (Nat.leb_spec 74 (length out)); [|lia]. destruct (Nat.leb_spec 192 (length out)); [|lia]. cbv zeta.
    assert (Lx : firstn 192 out = stage_out (Complete ss)) by (unfold out; rewrite firstn_kept by lia; apply firstn_all2; lia).
    assert (Sx : skipn 192 out = sealed_items (k_client (s_keys ss)) (iv_client (s_keys ss)) 1 it) by (unfold out; rewrite skipn_kept by lia; rewrite skipn_all2 by lia; reflexivity).
    rewrite Lx, same_refl, Sx. unfold heard_of.
    destruct (key_block_lengths (s_master ss) (s_cr ss) (sh_random (s_sh ss))) as (K1 & _ & K3 & _).
    rewrite hear_items by (assumption || lia). unfold served, answer_of. rewrite <- !app_assoc. reflexivity.
Qed.
