(** Witnesses for the record-layer refutations and examples, on a toy cipher that appends 16 zero bytes. *)
From Verif Require Import Spec_Record P_Util P_Codec P_RecordW P_RecordR P_Record P_Record2.

Definition toy_enc : encryptor := fun _ p _ => Ok (p ++ zeros 16).
Definition toy_dec : decryptor := Decryptor
  (fun _ c _ => if list_eq_dec Byte.byte_eq_dec (skipn (length c - 16) c) (zeros 16)
                then Ok (firstn (length c - 16) c) else Err BadRecordMac) 16.
Lemma toy_opens : opens toy_enc toy_dec.
Proof.
  intros n p a _ _ _. exists (p ++ zeros 16). split; [reflexivity|]. split; [rewrite zlen_app; reflexivity|].
  unfold toy_dec. cbn [dc_decrypt]. replace (length (p ++ zeros 16) - 16)%nat with (length p) by (rewrite app_length; cbn [zeros repeat length]; lia).
  rewrite skipn_app, firstn_app, skipn_all, firstn_all, Nat.sub_diag. cbn [skipn firstn app].
  destruct (list_eq_dec Byte.byte_eq_dec (zeros 16) (zeros 16)); [|contradiction]. rewrite app_nil_r. reflexivity.
Qed.
Lemma toy_seals : seals toy_enc 16.
Proof. exact (opens_seals _ _ toy_opens). Qed.

Lemma zlen_zeros n : zlen (zeros n) = Z.of_nat n.
Proof. unfold zlen, zeros. rewrite repeat_length. reflexivity. Qed.

(** ** C17 *)
Lemma reuse_witness : exists m e k iv w ops l1 l2,
  seals e k /\ length iv = 12%nat /\ w_enc w = Some e /\ w_iv w = Some iv /\ w_count w = 0 /\ w_log w = [] /\
  w_log (snd (run_ops m ops w)) = [l1; l2] /\ log_nonce l1 = log_nonce l2 /\ log_plain l1 <> log_plain l2.
Proof.
  assert (L1 : legal_fragment [x01]) by (cbv; split; discriminate).
  assert (L2 : legal_fragment [x02]) by (cbv; split; discriminate).
  destruct (nonce_reuse Debug toy_enc 16 (zeros 12) [x01] [x02] toy_seals ltac:(lia) eq_refl L1 L2 ltac:(discriminate))
    as (w & ops & w' & c1 & c2 & l1 & l2 & H1 & H2 & H3 & H4 & _ & _ & R & H5 & H6 & H7 & H8 & _).
  exists Debug, toy_enc, 16, (zeros 12), w, ops, l1, l2. split; [exact toy_seals|]. split; [reflexivity|].
  split; [exact H1|]. split; [exact H2|]. split; [exact H3|]. split; [exact H4|]. split; [rewrite R; exact H5|].
  split; [exact H6|]. rewrite H7, H8. discriminate.
Qed.

(** ** C19 *)
Lemma overflow_generic m e d iv t p c s : opens e d -> 0 <= dc_mac_len d -> length iv = 12%nat ->
  16384 < zlen p -> zlen p + dc_mac_len d <= 16384 + 2048 ->
  e (rfc_nonce iv 0) p (rfc_ad 0 t x03 x03 (zlen p)) = Ok c -> stream s = e_record t c ->
  fst (read_record m (Reader s (Some d) 0 [] (Some iv))) = Panic.
Proof.
  intros O M Liv Lp Lc E S.
  destruct (opens_use _ _ _ _ _ _ O E) as [Lc' DD]; [apply rfc_nonce_length; assumption|apply rfc_ad_length|lia|].
  eapply (sealed_overflow m _ d iv t x03 x03 p c []); try reflexivity; try assumption; cbn [r_count r_src]; try lia.
  rewrite app_nil_r. exact S.
Qed.
Lemma overflow_witness : exists m e d iv p c r,
  opens e d /\ dc_mac_len d = 16 /\ length iv = 12%nat /\ zlen p = 16385 /\ zlen c <= 16384 + 2048 /\
  e (rfc_nonce iv 0) p (rfc_ad 0 ApplicationDataTy x03 x03 (zlen p)) = Ok c /\
  r = Reader [RData (e_record ApplicationDataTy c)] (Some d) 0 [] (Some iv) /\
  fst (read_record m r) = Panic.
Proof.
  set (p := zeros (Z.to_nat 16385)).
  assert (Lp : zlen p = 16385) by (unfold p; rewrite zlen_zeros, Z2Nat.id; lia).
  exists Debug, toy_enc, toy_dec, (zeros 12), p, (p ++ zeros 16), (Reader [RData (e_record ApplicationDataTy (p ++ zeros 16))] (Some toy_dec) 0 [] (Some (zeros 12))).
  split; [exact toy_opens|]. split; [reflexivity|]. split; [reflexivity|]. split; [exact Lp|].
  split; [rewrite zlen_app, Lp, zlen_zeros; lia|]. split; [reflexivity|]. split; [reflexivity|].
  eapply overflow_generic; [exact toy_opens|discriminate|reflexivity|rewrite Lp; reflexivity|rewrite Lp; discriminate|reflexivity|].
  unfold stream. unfold e_record, wire. cbn [app]. rewrite app_nil_r. reflexivity.
Qed.

(** ** C22 *)
Lemma version_witness : exists m r rec, r = reader_new [RData (wire HandshakeTy x02 x00 [x0e; x00; x00; x00])] /\
  fst (read_record m r) = Ok rec /\ (rc_major rec, rc_minor rec) <> (x03, x03) /\
  fst (read_message m r) = Ok (HandshakeMessage server_hello_done).
Proof.
  exists Debug, (reader_new [RData (wire HandshakeTy x02 x00 [x0e; x00; x00; x00])]), (Rec HandshakeTy x02 x00 [x0e; x00; x00; x00]).
  split; [reflexivity|]. split; [reflexivity|]. split; [discriminate|reflexivity].
Qed.

(** ** C24 *)
(** for every cipher: all but the last byte of Finished in the clear, before ChangeCipherSpec *)
Lemma straddle_generic m e d iv v c : opens e d -> 0 <= dc_mac_len d <= 2048 -> length iv = 12%nat -> length v = 11%nat ->
  forall z, e (rfc_nonce iv 0) [z] (rfc_ad 0 HandshakeTy x03 x03 1) = Ok c ->
  fst ((do* _ := read_change_cipher_spec m in do* _ := r_set_decryptor d in read_handshake m)
         (Reader [RData (e_record HandshakeTy ([x14] ++ be 3 12 ++ v) ++ e_record ChangeCipherSpecTy [x01] ++ e_record HandshakeTy c)]
                 None 1 [] (Some iv))) = Ok (finished (v ++ [z])).
Proof.
  intros O M Liv Lv z E.
  eapply (straddle m e d iv (v ++ [z]) ([x14] ++ be 3 12 ++ v) [z] c); try assumption; try discriminate; try lia.
  - rewrite app_length, Lv. reflexivity.
  - unfold e_handshake, sp_vec. cbn [e_hs_body hs_type].
    assert (L : zlen (v ++ [z]) = 12) by (unfold zlen; rewrite app_length, Lv; reflexivity). rewrite L.
    cbn [app]. rewrite <- !app_assoc. reflexivity.
  - unfold stream. unfold e_record at 1, wire at 1. cbn [app]. rewrite app_nil_r. reflexivity.
Qed.
Lemma straddle_witness : exists m e d iv clear sealed v,
  opens e d /\ length iv = 12%nat /\
  (exists c, e (rfc_nonce iv 0) [x00] (rfc_ad 0 HandshakeTy x03 x03 1) = Ok c /\ sealed = e_record HandshakeTy c) /\
  fst ((do* _ := read_change_cipher_spec m in do* _ := r_set_decryptor d in read_handshake m)
         (Reader [RData (clear ++ e_record ChangeCipherSpecTy [x01] ++ sealed)] None 1 [] (Some iv))) = Ok (finished v).
Proof.
  exists Debug, toy_enc, toy_dec, (zeros 12), (e_record HandshakeTy ([x14] ++ be 3 12 ++ zeros 11)), (e_record HandshakeTy ([x00] ++ zeros 16)), (zeros 11 ++ [x00]).
  split; [exact toy_opens|]. split; [reflexivity|]. split; [eexists; split; reflexivity|].
  apply (straddle_generic Debug toy_enc toy_dec (zeros 12) (zeros 11) ([x00] ++ zeros 16) toy_opens); try reflexivity.
  split; discriminate.
Qed.
