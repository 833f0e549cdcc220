(** Proofs about src/client.rs and src/tls.rs: what the other side reads. *)
From Verif Require Import Spec_Client3 P_Util P_Codec P_RecordW P_RecordR P_Record P_Client P_Client2 P_App P_App2 P_App3 P_Client3 P_Client4 P_Ops P_Client5.
From Coq Require Import ZifyBool ZifyNat ZifyN.
Import String.StringSyntax.
Local Open Scope string_scope.
Local Open Scope list_scope.
Local Open Scope Z_scope.
#[local] Opaque SHA256 HMAC aead_seal aead_decrypt aead_encrypt compute_keys PRF nmul.

Lemma renders_items l it : renders l it -> zlen it <= cost l /\
  Forall (fun i => (fst i = ApplicationDataTy /\ legal_fragment (snd i)) \/ i = (AlertTy, [x02; x00])) it.
Proof.
  induction 1 as [|n l it R [L F]|buf fs l it C Lf R [L F]|l it R [L F]]; unfold cost in *; cbn [fold_right call_cost] in *.
  - split; [discriminate|constructor].
  - split; [lia|exact F].
  - split.
    + rewrite zlen_app. pose proof (fragments_bound fs Lf) as B. rewrite C in B. unfold zlen in *. rewrite map_length. lia.
    + apply Forall_app. split; [|exact F]. apply Forall_forall. intros i I. apply in_map_iff in I as (f & <- & I). left. split; [reflexivity|].
      rewrite Forall_forall in Lf. apply Lf, I.
  - split; [rewrite zlen_cons; lia|]. constructor; [right; reflexivity|exact F].
Qed.
Lemma items_heard m key iv : forall it r k, keyed m r key iv k -> no_pending r -> stream (r_src r) = sealed_items key iv k it -> k + zlen it < 2 ^ 64 ->
  Forall (fun i => (fst i = ApplicationDataTy /\ legal_fragment (snd i)) \/ i = (AlertTy, [x02; x00])) it ->
  exists r', reads (read_message m) (length it) r = (map Ok (map heard it), r') /\ fst (read_message m r') = Err IoFailure.
Proof.
  induction it as [|[t f] it IH]; intros r k Hk NP S K F.
  - exists r. split; [reflexivity|]. rewrite read_message_eq, NP, set_buf_id, pull_eq. unfold mbind, read_record, mbind, r_read.
    pose proof (fill_err (r_src r) 1) as X. rewrite S in X. specialize (X ltac:(cbn; lia)). destruct (fill_exact (r_src r) 1) as [y s']. cbn [fst] in X. subst y. reflexivity.
  - inversion F as [|? ? F1 F2]; subst. cbn [sealed_items] in S. rewrite zlen_cons in K. pose proof (zlen_nonneg it).
    assert (P : t <> HandshakeTy /\ zlen f <= 16384 /\ forall r0, handle_record (Rec t x03 x03 f) r0 = (Ok (Some (heard (t, f))), r0)).
    { destruct F1 as [[T [_ L]]|E]; cbn [fst snd] in *; [subst t|inversion E; subst].
      - split; [discriminate|]. split; [exact L|]. reflexivity.
      - split; [discriminate|]. split; [discriminate|]. reflexivity. }
    destruct P as (NT & L & Hh).
    destruct (sealed_message m r key iv k t f _ Hk S L ltac:(lia) NP NT) as (r1 & Hk1 & S1 & _ & B1 & E1). rewrite Hh in E1.
    destruct (IH r1 (k + 1) Hk1 (no_pending_buf _ _ B1 NP) S1 ltac:(lia) F2) as (r' & R & En). exists r'. split; [|exact En].
    cbn [length reads map]. rewrite E1, R. reflexivity.
Qed.
Lemma heard_written l it : renders l it -> app_data (map heard it) = written l.
Proof.
  unfold app_data, written. induction 1 as [|n l it R IH|buf fs l it C Lf R IH|l it R IH]; cbn [map concat] in *; [reflexivity|exact IH| |exact IH].
  rewrite !map_app, concat_app, IH, <- C. f_equal. rewrite !map_map. cbn [heard fst snd]. rewrite map_id. reflexivity.
Qed.
Theorem peer_hears m s p g c l as_ c' t : client_new m s p g = (Ok tt, c) -> healthy (writer_new p) -> 2 + cost l < 2 ^ 64 -> calls m l c = (as_, c') ->
  stream t = w_out (c_writer c') ->
  exists ss it, reached m s g (Complete ss) /\ renders l it /\ hears m t ss it /\ app_data (map heard it) = written l.
Proof.
  intros E H K C S. destruct (connected_emit m s p g c l as_ c' E ltac:(lia) C) as [G1 G2].
  destruct (G2 (G1 H)) as (ss & it & R & Rn & O). exists ss, it. split; [exact R|]. split; [exact Rn|]. split; [|apply heard_written; exact Rn].
  destruct (renders_items l it Rn) as [Li Fi]. pose proof (session_good _ _ _ _ R) as G. pose proof G as (Lc & _ & _ & Lk & W).
  rewrite O in S. cbn [stage_out] in S. unfold flight_hello, flight_exchange, flight_finished in S. rewrite <- !app_assoc in S.
  assert (W2 : Forall wf_handshake [offer (s_cr ss); client_key_exchange (s_cke ss)]) by (constructor; [apply wf_offer; exact Lc|constructor; [apply (cke_wf _ Lk)|constructor]]).
  destruct (clear_delivered m (reader_new t) [offer (s_cr ss); client_key_exchange (s_cke ss)]
    [e_handshake (offer (s_cr ss)); e_handshake (client_key_exchange (s_cke ss))]
    (e_record ChangeCipherSpecTy [x01] ++ sealed_record (k_client (s_keys ss)) (iv_client (s_keys ss)) 0 HandshakeTy (e_handshake (s_client_fin ss)) ++
      sealed_items (k_client (s_keys ss)) (iv_client (s_keys ss)) 1 it) W2 ltac:(discriminate)) as (r1 & R1 & D1 & I1 & B1 & S1 & C1).
  - constructor; [apply handshake_legal; [apply wf_offer; exact Lc|rewrite offer_body by exact Lc; lia]|]. constructor; [apply (cke_wf _ Lk)|constructor].
  - reflexivity.
  - reflexivity.
  - reflexivity.
  - reflexivity.
  - cbn [map concat reader_new r_src]. rewrite app_nil_r, <- !app_assoc. exact S.
  - destruct (ccs_delivered m r1 _ D1 B1 C1 S1) as (r2 & R2 & D2 & I2 & B2 & S2).
    set (ks := s_keys ss) in *. cbn [reader_new r_iv] in I1.
    set (r3 := Reader (r_src r2) (r_dec r2) (r_count r2) (r_buf r2) (Some (iv_client ks))).
    set (r4 := Reader (r_src r3) (Some (new_decryptor m (k_client ks))) 0 (r_buf r3) (r_iv r3)).
    destruct (key_block_lengths (s_master ss) (s_cr ss) (sh_random (s_sh ss))) as (K1 & _ & K3 & _). change (key_block _ _ _) with ks in K1, K3.
    assert (Hk : keyed m r4 (k_client ks) (iv_client ks) 0) by (repeat (split; [reflexivity || assumption|]); lia).
    destruct (fin_wf (s_master ss) "client finished" (s_msgs ss)) as (Wf & L16 & Lf). change (finished _) with (s_client_fin ss) in Wf, L16, Lf.
    destruct (sealed_yields m (k_client ks) (iv_client ks) HandshakeTy [e_handshake (s_client_fin ss)] r4 0 (sealed_items (k_client ks) (iv_client ks) 1 it) Hk)
      as (r5 & Y & K5 & S5 & B5).
    { cbn [sealed_stream]. rewrite app_nil_r. exact S2. } { constructor; [exact Lf|constructor]. } { reflexivity. }
    destruct (reassembly_all m x03 x03 [s_client_fin ss] [e_handshake (s_client_fin ss)] r4 r5 ltac:(constructor; [exact Wf|constructor])) as (Rr & B6).
    { constructor; [apply legal_nonempty; exact Lf|constructor]. } { exact B2. } { reflexivity. } { exact Y. }
    cbn [length map] in Rr. destruct (reads_cons _ _ _ _ _ _ Rr) as (r6 & R6 & R7). cbn [reads map] in R7. apply pair_equal_spec in R7 as [_ ->].
    destruct (items_heard m (k_client ks) (iv_client ks) it r5 1 K5 (no_pending_nil _ B6) S5 ltac:(lia) Fi) as (r7 & R7 & En).
    exists r1, r2, r3, r4, r5, r7. split; [exact R1|]. split; [exact R2|]. split; [unfold r_set_iv; rewrite I2, I1; reflexivity|].
    split; [unfold r_set_decryptor, r3; cbn [r_dec]; rewrite D2; reflexivity|]. split; [apply read_handshake_message; exact R6|]. auto.
Qed.
