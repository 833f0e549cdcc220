(** Proofs about the crate's own record tests: a reader and a writer need no IV to understand each other. *)
From Coq Require Import ZifyBool ZifyNat ZifyN.
From Verif Require Import Spec_Record Spec_Test P_Util P_Codec P_RecordW P_RecordR P_Record P_Record3 P_Client M_Test.

(** ** An IV of any length, or none, is as good as one of 12 bytes *)
Definition pad (iv : option bytes) : bytes :=
  match iv with Some v => firstn 12 (v ++ zeros 12) | None => zeros 12 end.
Lemma pad_length iv : length (pad iv) = 12%nat.
Proof. destruct iv as [v|]; [|reflexivity]. cbn [pad]. unfold zeros. rewrite firstn_length, app_length, repeat_length. lia. Qed.
Lemma xor_into_zeros a n : xor_into a (zeros n) = a.
Proof.
  revert n. induction a as [|x a IH]; intros [|n]; try reflexivity. unfold zeros in *. cbn [repeat xor_into].
  rewrite IH. f_equal. destruct x; reflexivity.
Qed.
Lemma xor_into_pad a v k : (length a <= k)%nat -> xor_into a (firstn k (v ++ zeros k)) = xor_into a v.
Proof.
  enough (G : forall a v k j, (length a <= k)%nat -> xor_into a (firstn k (v ++ zeros j)) = xor_into a v) by (intros; auto).
  clear. induction a as [|x a IH]; intros v k j L; [reflexivity|].
  destruct k as [|k]; [cbn in L; lia|]. destruct v as [|y v].
  - cbn [app]. destruct j as [|j]; [reflexivity|]. unfold zeros at 1. cbn [repeat firstn xor_into].
    replace (bxor x x00) with x by (destruct x; reflexivity). f_equal.
    change (repeat x00 j) with ([] ++ zeros j). rewrite IH by (cbn in L; lia). destruct a; reflexivity.
  - cbn [app firstn xor_into]. rewrite IH by (cbn in L; lia). reflexivity.
Qed.
Lemma nonce_pad k iv : seq_nonce k (Some (pad iv)) = seq_nonce k iv.
Proof.
  unfold seq_nonce. destruct iv as [v|]; cbn [pad].
  - apply xor_into_pad. rewrite app_length, be_length. reflexivity.
  - apply xor_into_zeros.
Qed.

Definition padw (w : writer) : writer := Writer (w_out w) (w_plan w) (w_enc w) (w_count w) (Some (pad (w_iv w))) (w_log w).
Definition padr (r : reader) : reader := Reader (r_src r) (r_dec r) (r_count r) (r_buf r) (Some (pad (r_iv r))).

(** [a] does the same on states related by [f] *)
Definition same_under {S A} (f : S -> S) (a : M S A) : Prop := forall s, a (f s) = let (x, s') := a s in (x, f s').
Lemma same_bind {S A B} (f : S -> S) (a : M S A) (k : A -> M S B) :
  same_under f a -> (forall v, same_under f (k v)) -> same_under f (do* v := a in k v).
Proof.
  intros H K s. unfold mbind. rewrite H. destruct (a s) as [[v|e| |] s']; try reflexivity. apply K.
Qed.
Lemma same_lift {S A} (f : S -> S) (r : res A) : same_under f (mlift r).
Proof. intros s. reflexivity. Qed.
Lemma same_ret {S A} (f : S -> S) (v : A) : same_under f (mret v).
Proof. intros s. reflexivity. Qed.
Lemma same_fail {S A} (f : S -> S) (r : res A) : same_under f (mfail r).
Proof. intros s. reflexivity. Qed.

Lemma same_write_all bs : same_under padw (write_all bs).
Proof. intros w. unfold write_all. destruct bs; [reflexivity|]. cbn [w_plan padw]. destruct (w_plan w) as [|[|k] p]; reflexivity. Qed.
Lemma same_bump m : same_under padw (w_bump m).
Proof. intros w. unfold w_bump. cbn [w_count padw]. destruct (ck m 64 (w_count w + 1)); reflexivity. Qed.
Lemma same_protect r : same_under padw (protect r).
Proof.
  intros w. unfold protect. cbn [w_enc w_count w_iv w_out w_plan w_log padw]. rewrite nonce_pad.
  destruct (w_enc w) as [e|]; [|reflexivity]. destruct (e _ _ _); reflexivity.
Qed.
Lemma same_write_record m r : same_under padw (write_record m r).
Proof.
  unfold write_record. apply same_bind; [apply same_protect|]. intros frag.
  destruct (ENC_RECORD_MAX_LEN <? zlen frag); [apply same_fail|].
  repeat (apply same_bind; [apply same_write_all|intros _]). apply same_bump.
Qed.
Lemma same_fragments m t fs : same_under padw (write_fragments m t fs).
Proof.
  induction fs as [|f fs IH]; [apply same_ret|]. cbn [write_fragments]. apply same_bind; [apply same_lift|]. intros r.
  apply same_bind; [apply same_write_record|]. intros _. exact IH.
Qed.
Lemma same_op m o : same_under padw (run_op m (as_wop o)).
Proof.
  destruct o as [h|a| |d]; cbn [as_wop run_op]; unfold write_handshake, write_alert, write_change_cipher_spec, write_data.
  - apply same_bind; [apply same_lift|]. intros v. apply same_fragments.
  - apply same_bind; [apply same_lift|]. intros v. apply same_fragments.
  - apply same_fragments.
  - intros w. unfold write_application_data. cbn [w_enc padw]. destruct (w_enc w); [apply same_fragments|reflexivity].
Qed.
Lemma same_ops m os : forall w, run_ops m (map as_wop os) (padw w) = let (x, w') := run_ops m (map as_wop os) w in (x, padw w').
Proof.
  induction os as [|o os IH]; intros w; [reflexivity|]. cbn [map run_ops]. rewrite same_op.
  destruct (run_op m (as_wop o) w) as [[[]|e| |] w']; try reflexivity; rewrite IH;
    destruct (run_ops m (map as_wop os) w'); reflexivity.
Qed.

Lemma same_r_read n : same_under padr (r_read n).
Proof. intros r. unfold r_read. cbn [r_src padr]. destruct (fill_exact (r_src r) n); reflexivity. Qed.
Lemma same_r_bump m : same_under padr (r_bump m).
Proof. intros r. unfold r_bump. cbn [r_count padr]. destruct (ck m 64 (r_count r + 1)); reflexivity. Qed.
Lemma same_unprotect t maj min f r : unprotect t maj min f (padr r) = unprotect t maj min f r.
Proof. unfold unprotect. cbn [r_dec r_count r_iv padr]. rewrite nonce_pad. reflexivity. Qed.
Lemma same_read_record m : same_under padr (read_record m).
Proof.
  unfold read_record. apply same_bind; [apply same_r_read|]. intros ty.
  destruct (from_code content_type_code content_type_all (be_val ty)) as [t|]; [|apply same_fail].
  repeat (apply same_bind; [apply same_r_read|intros ?]).
  match goal with |- context [ENC_RECORD_MAX_LEN <? ?x] => destruct (ENC_RECORD_MAX_LEN <? x) end; [apply same_fail|].
  apply same_bind; [apply same_r_read|]. intros f.
  apply same_bind; [intros r; rewrite same_unprotect; reflexivity|]. intros rec.
  apply same_bind; [apply same_r_bump|]. intros _. apply same_ret.
Qed.
Lemma same_get : same_under padr r_get_message.
Proof. intros r. unfold r_get_message. cbn [r_buf padr]. destruct (get_message (r_buf r)); reflexivity. Qed.
Lemma same_handle rec : same_under padr (handle_record rec).
Proof.
  unfold handle_record. destruct (rc_type rec).
  - destruct (rc_fragment rec) as [|b [|? ?]]; try apply same_fail. destruct (b2z b =? 1); [apply same_ret|apply same_fail].
  - destruct (rc_fragment rec) as [|l [|d ?]]; try apply same_fail.
    destruct (from_code alert_level_code alert_level_all (b2z l)); [|apply same_fail].
    destruct (from_code alert_desc_code alert_desc_all (b2z d)); [apply same_ret|apply same_fail].
  - destruct (rc_fragment rec) as [|b f]; [apply same_fail|]. apply same_bind; [intros r; reflexivity|]. intros _.
    apply same_bind; [apply same_get|]. intros o. apply same_ret.
  - apply same_ret.
Qed.
Lemma same_loop m f : same_under padr (read_message_loop m f).
Proof.
  induction f as [|f IH]; [apply same_fail|]. cbn [read_message_loop]. apply same_bind; [apply same_read_record|]. intros rec.
  apply same_bind; [apply same_handle|]. intros [msg|]; [apply same_ret|exact IH].
Qed.
Lemma same_read_message m : same_under padr (read_message m).
Proof.
  intros r. unfold read_message. cbn [r_src padr].
  apply (same_bind padr r_get_message
    (fun o => match o with Some h => mret (HandshakeMessage h) | None => read_message_loop m (S (src_size (r_src r))) end) same_get).
  intros [h|]; [apply same_ret|apply same_loop].
Qed.
Lemma same_reads m n : forall r, reads (read_message m) n (padr r) = let (x, r') := reads (read_message m) n r in (x, padr r').
Proof.
  induction n as [|n IH]; intros r; [reflexivity|]. cbn [reads]. rewrite same_read_message.
  destruct (read_message m r) as [[v|e| |] r']; try reflexivity; rewrite IH; destruct (reads (read_message m) n r'); reflexivity.
Qed.

Lemma padded w r : agreed_any_iv w r -> paired (padw w) (padr r).
Proof.
  intros (H1 & H2 & H3 & H4 & H5). unfold paired. cbn [w_count w_iv w_enc r_count r_iv r_buf r_dec padw padr].
  rewrite <- H3. repeat (split; [assumption || reflexivity|]). destruct (w_enc w), (r_dec r); try exact H5.
  destruct H5 as [O D]. split; [exact O|]. split; [exact D|]. exists (pad (w_iv w)). split; [reflexivity|apply pad_length].
Qed.

(** what the padded pair shows, the pair itself does *)
Lemma unpadded w r r2 : agreed_any_iv w r -> paired (padw w) (padr r2) -> w_iv w = r_iv r2 -> agreed_any_iv w r2.
Proof.
  intros (H1 & H2 & H3 & H4 & H5) (K1 & K2 & K3 & K4 & K5) I. unfold agreed_any_iv.
  cbn [w_count w_iv w_enc r_count r_iv r_buf r_dec padw padr] in *. repeat (split; [assumption|]).
  destruct (w_enc w), (r_dec r2); try exact K5. destruct K5 as (O & D & _). split; assumption.
Qed.
Definition kept {S A B} (p : S -> B) (a : M S A) : Prop := forall s, p (snd (a s)) = p s.
Lemma kept_bind {S A B C} (p : S -> C) (a : M S A) (k : A -> M S B) : kept p a -> (forall v, kept p (k v)) -> kept p (do* v := a in k v).
Proof.
  intros H K s. unfold mbind. specialize (H s). destruct (a s) as [[v|e| |] s'] eqn:E; cbn [snd] in *; try exact H.
  rewrite K. exact H.
Qed.
Lemma kept_const {S A C} (p : S -> C) (r : res A) : kept p (fun s => (r, s)).
Proof. intros s. reflexivity. Qed.
Lemma kept_fragments m t fs : kept w_iv (write_fragments m t fs).
Proof.
  induction fs as [|f fs IH]; [apply kept_const|]. cbn [write_fragments]. apply kept_bind; [apply kept_const|]. intros r.
  apply kept_bind; [|intros _; exact IH]. intros w. apply (write_record_keys m r w).
Qed.
Lemma kept_op m o : kept w_iv (run_op m (as_wop o)).
Proof.
  destruct o as [h|a| |d]; cbn [as_wop run_op]; unfold write_handshake, write_alert, write_change_cipher_spec, write_data.
  - apply kept_bind; [apply kept_const|]. intros v. apply kept_fragments.
  - apply kept_bind; [apply kept_const|]. intros v. apply kept_fragments.
  - apply kept_fragments.
  - intros w. unfold write_application_data. destruct (w_enc w); [apply kept_fragments|reflexivity].
Qed.
Lemma kept_ops m os : forall w, w_iv (snd (run_ops m (map as_wop os) w)) = w_iv w.
Proof.
  induction os as [|o os IH]; intros w; [reflexivity|]. cbn [map run_ops]. pose proof (kept_op m o w) as K.
  destruct (run_op m (as_wop o) w) as [[[]|e| |] w'] eqn:E; cbn [snd] in *; try exact K; rewrite <- K, <- (IH w');
    destruct (run_ops m (map as_wop os) w'); reflexivity.
Qed.
Lemma kept_reads m n : forall r, r_iv (snd (reads (read_message m) n r)) = r_iv r.
Proof.
  induction n as [|n IH]; intros r; [reflexivity|]. cbn [reads].
  destruct (read_message m r) as [x r'] eqn:E. destruct (read_message_keys m r x r' E) as [_ K].
  destruct x as [v|e| |]; cbn [snd]; try exact K; rewrite <- K, <- (IH r'); destruct (reads (read_message m) n r'); reflexivity.
Qed.

Lemma any_iv m os : Forall wf_msg_op os -> forall w r, healthy w -> agreed_any_iv w r ->
  w_count w + payloads os < 2 ^ 64 -> (forall d, In (SendApp d) os -> w_enc w <> None) ->
  exists w' bs ms, run_ops m (map as_wop os) w = (repeat (Ok tt) (length os), w') /\
    w_out w' = w_out w ++ bs /\ delivers os ms /\
    forall r2 rest, agreed_any_iv w r2 -> stream (r_src r2) = bs ++ rest ->
      exists r', reads (read_message m) (length ms) r2 = (map Ok ms, r') /\
                 stream (r_src r') = rest /\ agreed_any_iv w' r'.
Proof.
  intros W w r Hh A C Ha.
  destruct (end_to_end m os W (padw w) (padr r) Hh (padded w r A) C Ha) as (w1 & bs & ms & E & O & D & R).
  rewrite same_ops in E. pose proof (kept_ops m os w) as KW. destruct (run_ops m (map as_wop os) w) as [xs w'] eqn:EW.
  injection E as -> <-. cbn [snd] in KW. exists w', bs, ms. split; [reflexivity|]. split; [exact O|]. split; [exact D|].
  intros r2 rest A2 S2. destruct (R (padr r2) rest (padded w r2 A2) S2) as (r1 & E1 & S1 & P1).
  rewrite same_reads in E1. pose proof (kept_reads m (length ms) r2) as KR.
  destruct (reads (read_message m) (length ms) r2) as [ys r'] eqn:ER. injection E1 as -> <-. cbn [snd] in KR.
  exists r'. split; [reflexivity|]. split; [exact S1|].
  destruct P1 as (K1 & K2 & K3 & K4 & K5). cbn [w_count w_iv w_enc r_count r_iv r_buf r_dec padw padr] in *.
  unfold agreed_any_iv. repeat (split; [assumption|]). split; [rewrite KW, KR; apply A2|]. split; [exact K4|].
  destruct (w_enc w'), (r_dec r'); try exact K5. destruct K5 as (O' & D' & _). split; assumption.
Qed.

(** ** Where the data is cut *)
Lemma chunks_cut n (d : bytes) : (0 < n)%nat -> cut_every n d (chunks n d).
Proof.
  intros N. induction d as [|d Hd IH] using (chunks_ind n N); [constructor|].
  rewrite chunks_cons by assumption. destruct (Nat.leb_spec (length d) n) as [L|L].
  - rewrite firstn_all2, skipn_all2 by exact L. rewrite chunks_nil. constructor. destruct d; [contradiction|]. cbn [length] in *. lia.
  - rewrite <- (firstn_skipn n d) at 1. constructor; [rewrite firstn_length; lia| |exact IH].
    intros E. apply (f_equal (@length _)) in E. rewrite skipn_length in E. cbn in E. lia.
Qed.
Lemma cut_unique n d ps qs : (0 < n)%nat -> cut_every n d ps -> cut_every n d qs -> ps = qs.
Proof.
  intros N H. revert qs. induction H as [|d L|p d ps L Hd H IH]; intros qs Q.
  - inversion Q; subst; [reflexivity|cbn in *; lia|]. destruct p; [cbn in *; lia|discriminate].
  - inversion Q; subst; [cbn in *; lia|reflexivity|]. destruct d0; [contradiction|]. rewrite app_length in L. cbn [length] in L. lia.
  - inversion Q as [E1 E2|d' L' E1 E2|p' d' ps' L' Hd' H' E1 E2]; subst.
    + destruct p; [cbn in *; lia|discriminate].
    + destruct d; [contradiction|]. rewrite app_length in L'. cbn [length] in L'. lia.
    + assert (EE : p' = p /\ d' = d).
      { apply (f_equal (firstn (length p))) in E1 as F. rewrite firstn_app, L', Nat.sub_diag, firstn_all2, app_nil_r in F by lia.
        rewrite firstn_app, Nat.sub_diag, firstn_all2, app_nil_r in F by lia. split; [exact F|]. subst p'. apply app_inv_head in E1. exact E1. }
      destruct EE as [-> ->]. f_equal. apply IH. exact H'.
Qed.

Lemma app_exact m data w r : healthy w -> agreed_any_iv w r -> w_enc w <> None -> w_count w + zlen data < 2 ^ 64 ->
  exists w' bs ps, write_application_data m data w = (Ok tt, w') /\ w_out w' = w_out w ++ bs /\ cut_every (Z.to_nat 16384) data ps /\
    forall r2 rest, agreed_any_iv w r2 -> stream (r_src r2) = bs ++ rest ->
      exists r', reads (read_message m) (length ps) r2 = (map Ok (map ApplicationDataMessage ps), r') /\ stream (r_src r') = rest.
Proof.
  intros Hh A He C. destruct (fragments_legal data) as (F1 & F2 & F3).
  set (fs := chunks (Z.to_nat RECORD_MAX_LEN) data) in *.
  destruct (fragments_travel m ApplicationDataTy fs (padw w) (padr r) F2 Hh (padded w r A)) as (w1 & bs & E & _ & O & _ & _ & R).
  { cbn [w_count padw]. lia. }
  rewrite same_fragments in E. destruct (write_fragments m ApplicationDataTy fs w) as [x w'] eqn:EW. injection E as -> <-.
  exists w', bs, fs. split.
  { unfold write_application_data. destruct (w_enc w); [|contradiction]. exact EW. }
  split; [exact O|]. split; [apply (chunks_cut (Z.to_nat 16384)); lia|].
  intros r2 rest A2 S2. destruct (R (padr r2) rest (padded w r2 A2) S2) as (r1 & Y & S1 & _).
  apply read_app_records in Y; [|apply A2]. rewrite same_reads in Y.
  destruct (reads (read_message m) (length fs) r2) as [ys r']. injection Y as -> <-. exists r'. split; [reflexivity|exact S1].
Qed.

(** ** The tests *)
Lemma null_opens : opens null_encryptor null_decryptor.
Proof. intros n p a _ _ _. exists p. split; [reflexivity|]. split; [cbn; lia|reflexivity]. Qed.
Lemma cursor_stream d : stream (cursor d) = d.
Proof. destruct d; [reflexivity|]. cbn. rewrite app_nil_r. reflexivity. Qed.
Lemma same_bytes_refl d : same_bytes d d = true.
Proof. unfold same_bytes. destruct (list_eq_dec byte_eq_dec d d); [reflexivity|contradiction]. Qed.

Lemma ccs_test m : test_change_cipher_spec_message m = Ok tt.
Proof. destruct m; vm_compute; reflexivity. Qed.

Lemma same_bytes_iff a b : same_bytes a b = true <-> a = b.
Proof. unfold same_bytes. destruct (list_eq_dec byte_eq_dec a b); split; congruence. Qed.
Lemma app_test_any m a b x y : zlen a = 16384 -> 1 <= zlen b <= 16384 -> application_test m (a ++ b) x y = if same_bytes a x && same_bytes b y then Ok tt else Panic.
Proof.
  intros LA LB. unfold application_test, null_writer, w_set_encryptor. cbn [w_enc writer_new rbind w_out w_plan w_iv w_log].
  set (w := Writer [] [] (Some null_encryptor) 0 None []).
  assert (A : forall s, agreed_any_iv w (Reader s (Some null_decryptor) 0 [] None)).
  { intros s. repeat (split; [reflexivity || lia|]). split; [exact null_opens|]. cbn. lia. }
  destruct (app_exact m (a ++ b) w _ (Forall_nil _) (A [])) as (w' & bs & ps & E & O & Q & R).
  { discriminate. }
  { cbn [w_count w]. rewrite zlen_app. lia. }
  rewrite E. cbn [unwrap rbind]. cbn [w_out w app] in O. rewrite O.
  assert (Hps : ps = [a; b]).
  { apply (cut_unique (Z.to_nat 16384) (a ++ b)); [lia|exact Q|]. constructor; [unfold zlen in LA; lia|destruct b; [cbn in LB; lia|discriminate]|].
    constructor. unfold zlen in LB; lia. }
  subst ps. unfold null_reader, r_set_decryptor. cbn [r_dec reader_new rbind r_src r_buf r_iv].
  destruct (R (Reader (cursor bs) (Some null_decryptor) 0 [] None) []) as (r' & E2 & _);
    [apply A|cbn [r_src]; rewrite cursor_stream, app_nil_r; reflexivity|].
  cbn [length reads map] in E2. change hb_new with (@nil byte).
  destruct (read_message m _) as [[m1|?| |] r1]; try discriminate E2; [|destruct (read_message m r1) as [[?|?| |] ?]; discriminate E2].
  destruct (read_message m r1) as [[m2|?| |] r2]; try discriminate E2. injection E2 as -> -> _.
  cbn [unwrap rbind]. destruct (same_bytes a x), (same_bytes b y); reflexivity.
Qed.
Lemma app_test m a b : zlen a = 16384 -> 1 <= zlen b <= 16384 -> application_test m (a ++ b) a b = Ok tt.
Proof. intros A B. rewrite app_test_any, !same_bytes_refl by assumption. reflexivity. Qed.
Lemma app_test_fails m a b x y : zlen a = 16384 -> 1 <= zlen b <= 16384 -> x <> a \/ y <> b -> application_test m (a ++ b) x y = Panic.
Proof.
  intros A B N. rewrite app_test_any by assumption. destruct (same_bytes a x) eqn:E, (same_bytes b y) eqn:F; try reflexivity.
  apply same_bytes_iff in E, F. destruct N; congruence.
Qed.
Lemma application_message_test m : test_application_message m = Ok tt.
Proof.
  unfold test_application_message. replace (Z.to_nat (RECORD_MAX_LEN + 200)) with (Z.to_nat RECORD_MAX_LEN + 200)%nat
    by (unfold RECORD_MAX_LEN; lia). rewrite repeat_app.
  apply app_test; unfold zlen; rewrite repeat_length; unfold RECORD_MAX_LEN; lia.
Qed.
