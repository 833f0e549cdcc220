(** Laws of the calls of the client: a read is the reads of its parts, and so for writes. *)
From Verif Require Import Spec_Client P_Util P_Codec P_RecordW P_RecordR P_Record P_Record2 P_Record3 P_Aead P_Halt P_Client P_App M_Std2.
From Coq Require Import ZifyBool ZifyNat ZifyN.
Local Open Scope Z_scope.
#[local] Opaque aead_seal aead_decrypt aead_encrypt.

(** ** reading *)
Lemma skip_more {A} a b (l : list A) : skipn (a + b) l = skipn b (skipn a l).
Proof. revert l. induction a as [|a IH]; intros l; [reflexivity|]. destruct l; cbn [skipn Nat.add]; [symmetry; apply skipn_nil|apply IH]. Qed.
Lemma first_more {A} a b (l : list A) : firstn (a + b) l = firstn a l ++ firstn b (skipn a l).
Proof. revert l. induction a as [|a IH]; intros l; [reflexivity|]. destruct l; cbn [skipn firstn Nat.add app]; [symmetry; apply firstn_nil|f_equal; apply IH]. Qed.
Lemma rd_feed m len b done c r l y c2 : (length done < len)%nat ->
  rd m (len + b) (done ++ firstn (len - length done) l) (with_buf c r (skipn (len - length done) l)) y c2 ->
  rd m (len + b) (done ++ firstn (len + b - length done) l) (with_buf c r (skipn (len + b - length done) l)) y c2.
Proof.
  intros L Q. replace (len + b - length done)%nat with ((len - length done) + b)%nat by lia. rewrite skip_more, first_more, app_assoc.
  destruct b as [|b]; [rewrite firstn_O, app_nil_r; exact Q|].
  destruct (skipn (len - length done) l) as [|z zs] eqn:E; [rewrite firstn_nil, app_nil_r, skipn_nil; exact Q|].
  assert (T : length (done ++ firstn (len - length done) l) = len).
  { apply (f_equal (@length byte)) in E. rewrite skipn_length in E. cbn in E. rewrite app_length, firstn_length. lia. }
  inversion Q; subst; cbn [with_buf c_buf c_reader c_writer c_rng] in *; try lia; try discriminate.
  rewrite T in *. replace (len + S b - len)%nat with (S b) in * by lia. assumption.
Qed.
Lemma rd_long m len b : forall done c x c', rd m len done c x c' ->
  match x with
  | Ok d => if (length d <? len)%nat then rd m (len + b) done c (Ok d) c'
            else (length done <= len)%nat -> length d = len /\ forall y c2, rd m (len + b) d c' y c2 -> rd m (len + b) done c y c2
  | _ => rd m (len + b) done c x c'
  end.
Proof.
  induction 1 as [done c L|done c x c' L B R IH|done c d r' x c' L B E R IH|done c k r' L B E|done c r' L B E|done c r' L B E].
  - destruct (Nat.ltb_spec (length done) len) as [X|_]; [lia|]. intros L'. split; [lia|auto].
  - assert (T : (length (done ++ firstn (len - length done) (c_buf c)) <= len)%nat) by (rewrite app_length, firstn_length; lia).
    assert (C : forall y c2, rd m (len + b) (done ++ firstn (len - length done) (c_buf c)) (with_buf c (c_reader c) (skipn (len - length done) (c_buf c))) y c2 ->
                 rd m (len + b) done c y c2).
    { intros y c2 Q. apply Rd_copy; [lia|exact B|]. apply rd_feed; assumption. }
    destruct x as [d|k| |]; [|apply C, IH|apply C, IH|apply C, IH].
    destruct (length d <? len)%nat; [apply C, IH|]. intros _. destruct (IH T) as (Ld & Q). split; [exact Ld|]. intros y c2 Y. apply C, Q, Y.
  - assert (T : (length (done ++ firstn (len - length done) d) <= len)%nat) by (rewrite app_length, firstn_length; lia).
    assert (C : forall y c2, rd m (len + b) (done ++ firstn (len - length done) d) (with_buf c r' (skipn (len - length done) d)) y c2 ->
                 rd m (len + b) done c y c2).
    { intros y c2 Q. eapply Rd_data; [lia|exact B|exact E|]. apply rd_feed; assumption. }
    destruct x as [d'|k| |]; [|apply C, IH|apply C, IH|apply C, IH].
    destruct (length d' <? len)%nat; [apply C, IH|]. intros _. destruct (IH T) as (Ld & Q). split; [exact Ld|]. intros y c2 Y. apply C, Q, Y.
  - destruct (Nat.ltb_spec (length done) len) as [_|X]; [|lia]. eapply Rd_err; [lia|exact B|exact E].
  - apply Rd_panic; [lia|exact B|exact E].
  - apply Rd_diverge; [lia|exact B|exact E].
Qed.
(** bytes stored before do not matter *)
Lemma rd_shift m b pre : forall done c x c', rd m b done c x c' ->
  rd m (length pre + b) (pre ++ done) c (match x with Ok d => Ok (pre ++ d) | e => e end) c'.
Proof.
  induction 1 as [done c L|done c x c' L B R IH|done c d r' x c' L B E R IH|done c k r' L B E|done c r' L B E|done c r' L B E].
  - apply Rd_full. rewrite app_length. lia.
  - apply Rd_copy; [rewrite app_length; lia|exact B|].
    replace (length pre + b - length (pre ++ done))%nat with (b - length done)%nat by (rewrite app_length; lia). rewrite <- app_assoc. exact IH.
  - eapply Rd_data; [rewrite app_length; lia|exact B|exact E|].
    replace (length pre + b - length (pre ++ done))%nat with (b - length done)%nat by (rewrite app_length; lia). rewrite <- app_assoc. exact IH.
  - eapply Rd_err; [rewrite app_length; lia|exact B|exact E].
  - apply Rd_panic; [rewrite app_length; lia|exact B|exact E].
  - apply Rd_diverge; [rewrite app_length; lia|exact B|exact E].
Qed.

(** a read of [a + b] bytes is a read of [a], and, if that was full, one of [b] *)
Theorem read_split m a b c : client_read m (a + b) c =
  (do* d := client_read m a in
   if (length d <? a)%nat then mret d else do* d' := client_read m b in mret (d ++ d')) c.
Proof.
  unfold mbind. destruct (client_read m a c) as [x c1] eqn:E1. pose proof (read_rd _ _ _ _ _ E1) as R.
  pose proof (rd_long m a b _ _ _ _ R) as Q. destruct x as [d|k| |]; [|apply rd_read; exact Q|apply rd_read; exact Q|apply rd_read; exact Q].
  destruct (length d <? a)%nat; [apply rd_read; exact Q|]. destruct (Q ltac:(cbn; lia)) as (Ld & Q').
  destruct (client_read m b c1) as [y c2] eqn:E2. pose proof (read_rd _ _ _ _ _ E2) as R2.
  apply (rd_shift m b d) in R2. rewrite app_nil_r, Ld in R2.
  destruct y as [d'|k| |]; apply rd_read, Q', R2.
Qed.

(** one byte at a time *)
Theorem bytes_read m : forall k c, client_bytes m k c = client_read m k c.
Proof.
  induction k as [|k IH]; intros c; [reflexivity|]. cbn [client_bytes]. change (S k) with (1 + k)%nat. rewrite read_split.
  unfold mbind. destruct (client_read m 1 c) as [x c1] eqn:E. destruct x as [d|e| |]; try reflexivity.
  destruct d as [|z zs]; [reflexivity|]. cbn [length Nat.ltb Nat.leb]. rewrite IH. reflexivity.
Qed.

(** ** writing *)
Lemma fragments_app m t : forall fs gs w, write_fragments m t (fs ++ gs) w = (do* _ := write_fragments m t fs in write_fragments m t gs) w.
Proof.
  induction fs as [|f fs IH]; intros gs w; [reflexivity|]. cbn [app write_fragments]. unfold mbind, mlift.
  destruct (record_new _ _ _ f) as [r|k| |]; try reflexivity. destruct (write_record m r w) as [[u|k| |] w1]; try reflexivity.
  rewrite IH. unfold mbind. destruct (write_fragments m t fs w1) as [[[]|k| |] w2]; reflexivity.
Qed.
Lemma fragments_enc m t : forall fs w w', write_fragments m t fs w = (Ok tt, w') -> w_enc w' = w_enc w.
Proof.
  induction fs as [|f fs IH]; intros w w' E; cbn [write_fragments] in E; [inversion E; reflexivity|]. unfold mbind, mlift in E.
  destruct (record_new _ _ _ f) as [r|k| |]; try discriminate. pose proof (proj1 (write_record_keys m r w)) as K.
  destruct (write_record m r w) as [[u|k| |] w1]; try discriminate. cbn [snd] in K. rewrite (IH _ _ E). exact K.
Qed.
Lemma app_data_split m a b w : (length a mod Z.to_nat RECORD_MAX_LEN = 0)%nat ->
  write_application_data m (a ++ b) w = (do* _ := write_application_data m a in write_application_data m b) w.
Proof.
  intros L. unfold write_application_data, write_data, mbind. destruct (w_enc w) eqn:E; [|reflexivity].
  assert (P : (0 < Z.to_nat RECORD_MAX_LEN)%nat) by (apply Nat2Z.inj_lt; rewrite Z2Nat.id by discriminate; reflexivity).
  rewrite chunks_app by assumption. rewrite fragments_app. unfold mbind.
  destruct (write_fragments m ApplicationDataTy (chunks (Z.to_nat RECORD_MAX_LEN) a) w) as [[[]|k| |] w1] eqn:F; try reflexivity.
  apply fragments_enc in F. rewrite F, E. reflexivity.
Qed.
(** a write of [a ++ b] is one of [a] and one of [b], if records end where [a] does *)
Theorem write_split m a b c : zlen a mod 16384 = 0 ->
  client_write_all m (a ++ b) c = (do* _ := client_write_all m a in client_write_all m b) c.
Proof.
  intros L. assert (L' : (length a mod Z.to_nat RECORD_MAX_LEN = 0)%nat).
  { apply Nat2Z.inj. rewrite Nat2Z.inj_mod. rewrite Z2Nat.id by discriminate. exact L. }
  unfold client_write_all, or_alert, on_writer, mbind. rewrite app_data_split by exact L'. unfold mbind.
  destruct (write_application_data m a (c_writer c)) as [[u|k| |] w1]; cbn [c_writer c_reader c_rng c_buf]; try reflexivity.
  destruct (send_tls_alert m k _) as [[e|e| |] c2]; reflexivity.
Qed.
Theorem fmt_app m ps qs c : client_write_fmt m (ps ++ qs) c = (do* _ := client_write_fmt m ps in client_write_fmt m qs) c.
Proof.
  revert c. induction ps as [|p ps IH]; intros c; [reflexivity|]. cbn [app client_write_fmt]. unfold mbind.
  destruct (client_write_all m p c) as [[u|k| |] c1]; try reflexivity. rewrite IH. reflexivity.
Qed.
Lemma fmt_calls m : forall ps c c', client_write_fmt m ps c = (Ok tt, c') ->
  calls m (map Write ps) c = (map (fun p => Wrote (Ok (zlen p))) ps, c').
Proof.
  induction ps as [|p ps IH]; intros c c' E; cbn [client_write_fmt map calls] in *; [inversion E; reflexivity|].
  cbn [do_call]. unfold client_write, mbind in *. destruct (client_write_all m p c) as [[u|k| |] c1]; try discriminate.
  cbn. rewrite (IH _ _ E). reflexivity.
Qed.
Lemma calls_fmt m : forall ps as_ c c', calls m (map Write ps) c = (as_, c') -> Forall2 good_answer (map Write ps) as_ -> client_write_fmt m ps c = (Ok tt, c').
Proof.
  induction ps as [|p ps IH]; intros as_ c c' E G; cbn [client_write_fmt map calls] in *; [inversion E; reflexivity|].
  cbn [do_call] in E. destruct (client_write m p c) as [x c1] eqn:W. destruct (calls m (map Write ps) c1) as [r c2] eqn:Q.
  inversion E; subst. inversion G as [|? ? ? ? G1 G2]; subst. cbn [good_answer] in G1. subst x. unfold client_write, mbind, mret in *.
  destruct (client_write_all m p c) as [[u|k| |] c3]; try discriminate. inversion W; subst. exact (IH _ _ _ Q G2).
Qed.
