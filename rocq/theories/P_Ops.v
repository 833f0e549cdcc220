(** Proofs about src/client.rs: histories of calls; the remaining statements about construction. *)
From Verif Require Import Spec_Client P_Util P_Codec P_RecordW P_RecordR P_Record P_Record2 P_Aead P_Fp NT_Order P_P256X P_Ecdhe P_Halt P_Client P_Client2 P_App P_App2 P_Client3 P_Client4 P_Panic.
From Coq Require Import ZifyBool ZifyNat ZifyN.
Import String.StringSyntax.
Local Open Scope string_scope.
Local Open Scope list_scope.
Local Open Scope Z_scope.
#[local] Opaque SHA256 HMAC aead_seal aead_decrypt aead_encrypt compute_keys PRF nmul.

(** ** Reading does not touch the writing half, and conversely *)
Lemma rd_writer m len done c x c' : rd m len done c x c' -> c_writer c' = c_writer c /\ c_rng c' = c_rng c.
Proof. induction 1; auto. Qed.
Lemma read_writer m n c x c' : client_read m n c = (x, c') -> c_writer c' = c_writer c /\ c_rng c' = c_rng c.
Proof. intros E. apply read_rd in E. eapply rd_writer; eauto. Qed.
Lemma rd_frame m len done c x c' : rd m len done c x c' -> forall w g, rd m len done (Client (c_reader c) w g (c_buf c)) x (Client (c_reader c') w g (c_buf c')).
Proof.
  induction 1 as [done c L|done c x c' L B R IH|done c d r' x c' L B E R IH|done c e r' L B E|done c r' L B E|done c r' L B E]; intros w g.
  - apply Rd_full; exact L.
  - apply Rd_copy; [exact L|exact B|]. exact (IH w g).
  - eapply Rd_data; [exact L|exact B|exact E|]. exact (IH w g).
  - eapply (Rd_err _ _ _ (Client _ w g _)); [exact L|exact B|exact E].
  - eapply (Rd_panic _ _ _ (Client _ w g _)); [exact L|exact B|exact E].
  - eapply (Rd_diverge _ _ _ (Client _ w g _)); [exact L|exact B|exact E].
Qed.
Lemma read_frame m n c x c' w g : client_read m n c = (x, c') -> client_read m n (Client (c_reader c) w g (c_buf c)) = (x, Client (c_reader c') w g (c_buf c')).
Proof. intros E. apply rd_read. apply read_rd in E. exact (rd_frame _ _ _ _ _ _ E w g). Qed.
(** operations of the writing half *)
Definition writer_op {A} (a : M client A) : Prop := exists b : M writer A, forall c, a c = on_writer b c.
Lemma on_writer_op {A} (b : M writer A) : writer_op (on_writer b).
Proof. exists b. reflexivity. Qed.
Lemma send_alert_op m k : writer_op (send_tls_alert m k).
Proof.
  exists (fun w => match k with IoFailure => (Ok k, w) | _ =>
    match write_alert m (Alert AL_fatal (alert_from_err k)) w with
    | (Ok _, w') => (Ok k, w') | (Err k', w') => (Ok k', w') | (Panic, w') => (Panic, w') | (Diverge, w') => (Diverge, w') end end).
  intros [r w g b]. destruct k; unfold send_tls_alert, on_writer, mret; cbn [c_writer c_reader c_rng c_buf]; try reflexivity;
    destruct (write_alert m _ w) as [[] w']; reflexivity.
Qed.
Lemma or_alert_op {A} m (a : M client A) : writer_op a -> writer_op (or_alert m a).
Proof.
  intros (b & H). exists (fun w => match b w with
    | (Err k, w1) => match send_tls_alert m k (Client (reader_new []) w1 [] []) with
                     | (Ok k', c) => (Err k', c_writer c) | (Err k', c) => (Err k', c_writer c) | (Panic, c) => (Panic, c_writer c) | (Diverge, c) => (Diverge, c_writer c) end
    | r => r end).
  intros [r w g u]. unfold or_alert. rewrite H. unfold on_writer. cbn [c_writer c_reader c_rng c_buf]. destruct (b w) as [[x|k| |] w1]; try reflexivity.
  destruct (send_alert_op m k) as (s & Hs). rewrite !Hs. unfold on_writer. cbn [c_writer c_reader c_rng c_buf]. destruct (s w1) as [[] w2]; reflexivity.
Qed.
Lemma bind_op {A B} (a : M client A) (f : A -> B) : writer_op a -> writer_op (do* x := a in mret (f x)).
Proof.
  intros (b & H). exists (do* x := b in mret (f x)). intros [r w g u]. unfold mbind, on_writer, mret. rewrite H. unfold on_writer. cbn [c_writer c_reader c_rng c_buf].
  destruct (b w) as [[] w']; reflexivity.
Qed.
Lemma write_op m buf : writer_op (client_write m buf).
Proof. apply (bind_op _ (fun _ => zlen buf)). apply or_alert_op, on_writer_op. Qed.
Lemma close_op m : writer_op (client_close m).
Proof. apply on_writer_op. Qed.

Lemma calls_reads m : forall l c w g, 
  fst (calls m (filter is_read l) (Client (c_reader c) w g (c_buf c))) = filter is_got (fst (calls m l c)) /\
  let c1 := snd (calls m (filter is_read l) (Client (c_reader c) w g (c_buf c))) in let c2 := snd (calls m l c) in
  c_reader c1 = c_reader c2 /\ c_buf c1 = c_buf c2 /\ c_writer c1 = w /\ c_rng c1 = g.
Proof.
  induction l as [|o l IH]; intros c w g; [cbn; auto|]. cbn [filter calls]. destruct o as [n|buf|]; cbn [is_read].
  - cbn [calls do_call]. destruct (client_read m n c) as [x c1] eqn:E. rewrite (read_frame _ _ _ _ _ w g E).
    specialize (IH c1 w g). destruct (calls m l c1) as [a c2]. destruct (calls m (filter is_read l) (Client (c_reader c1) w g (c_buf c1))) as [a' c3].
    cbn [fst snd filter is_got] in *. destruct IH as (-> & IH). auto.
  - cbn [do_call]. destruct (write_op m buf) as (b & H). rewrite H. unfold on_writer. destruct (b (c_writer c)) as [x w1].
    specialize (IH (Client (c_reader c) w1 (c_rng c) (c_buf c)) w g). cbn [c_reader c_buf] in IH.
    destruct (calls m l (Client (c_reader c) w1 (c_rng c) (c_buf c))) as [a c2]. cbn [fst snd filter is_got] in *. exact IH.
  - cbn [do_call]. destruct (close_op m) as (b & H). rewrite H. unfold on_writer. destruct (b (c_writer c)) as [x w1].
    specialize (IH (Client (c_reader c) w1 (c_rng c) (c_buf c)) w g). cbn [c_reader c_buf] in IH.
    destruct (calls m l (Client (c_reader c) w1 (c_rng c) (c_buf c))) as [a c2]. cbn [fst snd filter is_got] in *. exact IH.
Qed.
Lemma calls_writes m : forall l c r b, 
  fst (calls m (filter is_write l) (Client r (c_writer c) (c_rng c) b)) = filter is_wrote (fst (calls m l c)) /\
  let c1 := snd (calls m (filter is_write l) (Client r (c_writer c) (c_rng c) b)) in let c2 := snd (calls m l c) in
  c_writer c1 = c_writer c2 /\ c_rng c1 = c_rng c2 /\ c_reader c1 = r /\ c_buf c1 = b.
Proof.
  induction l as [|o l IH]; intros c r b; [cbn; auto|]. cbn [filter calls]. destruct o as [n|buf|]; cbn [is_write is_read negb].
  - cbn [do_call]. destruct (client_read m n c) as [x c1] eqn:E. apply read_writer in E as [E1 E2]. specialize (IH c1 r b). rewrite E1, E2 in IH.
    destruct (calls m l c1) as [a c2]. cbn [fst snd filter is_wrote is_got negb] in *. exact IH.
  - cbn [calls do_call]. destruct (write_op m buf) as (f & H). rewrite !H. unfold on_writer. cbn [c_writer c_reader c_rng c_buf]. destruct (f (c_writer c)) as [x w1].
    specialize (IH (Client (c_reader c) w1 (c_rng c) (c_buf c)) r b). cbn [c_writer c_rng] in IH.
    destruct (calls m l (Client (c_reader c) w1 (c_rng c) (c_buf c))) as [a c2]. destruct (calls m (filter is_write l) (Client r w1 (c_rng c) b)) as [a' c3].
    cbn [fst snd filter is_wrote is_got negb] in *. destruct IH as (-> & IH). auto.
  - cbn [calls do_call]. destruct (close_op m) as (f & H). rewrite !H. unfold on_writer. cbn [c_writer c_reader c_rng c_buf]. destruct (f (c_writer c)) as [x w1].
    specialize (IH (Client (c_reader c) w1 (c_rng c) (c_buf c)) r b). cbn [c_writer c_rng] in IH.
    destruct (calls m l (Client (c_reader c) w1 (c_rng c) (c_buf c))) as [a c2]. destruct (calls m (filter is_write l) (Client r w1 (c_rng c) b)) as [a' c3].
    cbn [fst snd filter is_wrote is_got negb] in *. destruct IH as (-> & IH). auto.
Qed.
(** histories without a panic are histories of calls *)
Lemma calls_of_reads m : forall sizes c, Forall fine (fst (client_reads m sizes c)) ->
  calls m (map Read sizes) c = (map Got (fst (client_reads m sizes c)), snd (client_reads m sizes c)).
Proof.
  induction sizes as [|n sizes IH]; intros c F; [reflexivity|]. cbn [map calls client_reads do_call] in *.
  destruct (client_read m n c) as [x c1]. destruct x; try (inversion F; subst; match goal with H : fine _ |- _ => destruct H end).
  all: specialize (IH c1); destruct (client_reads m sizes c1) as [xs c2]; cbn [fst snd] in *; inversion F; subst; rewrite IH by assumption; reflexivity.
Qed.

(** ** What the calls put on the wire *)
Lemma close_app m key iv k c : keyed_w m (c_writer c) key iv k -> k + 1 < 2 ^ 64 ->
  exists x c', client_close m c = (x, c') /\ (healthy (c_writer c) -> healthy (c_writer c')) /\
    ((x = Ok tt /\ w_out (c_writer c') = w_out (c_writer c) ++ sealed_record key iv k AlertTy [x02; x00] /\ keyed_w m (c_writer c') key iv (k + 1)) \/
     (x = Err IoFailure /\ ~ healthy (c_writer c))).
Proof.
  intros (E & V & C & Lk & Li & K0) K. unfold client_close, on_writer, write_alert, mbind, mlift.
  change (tls_write i_alert (Alert AL_fatal AD_close_notify)) with (@Ok bytes [x02; x00]). cbv iota beta.
  destruct (write_one_sealed m AlertTy [x02; x00] (c_writer c) key iv ltac:(split; cbv; discriminate) Lk Li E V ltac:(lia) ltac:(lia)) as (x & w' & -> & Em & A & B & H & D).
  eexists _, _. split; [reflexivity|]. cbn [c_writer]. split; [exact H|]. rewrite C in *.
  destruct Em as [[-> O]|(-> & Hn & _)]; [left|right; auto]. split; [reflexivity|]. split; [exact O|]. specialize (D eq_refl).
  repeat split; try congruence. lia.
Qed.
Lemma sealed_items_app key iv : forall a b k, sealed_items key iv k (a ++ b) = sealed_items key iv k a ++ sealed_items key iv (k + zlen a) b.
Proof.
  induction a as [|[t f] a IH]; intros b k; [cbn [app sealed_items]; rewrite Z.add_0_r; reflexivity|].
  cbn [app sealed_items]. rewrite IH, <- app_assoc. do 2 f_equal. rewrite zlen_cons. replace (k + 1 + zlen a) with (k + (1 + zlen a)) by lia. reflexivity.
Qed.
Lemma sealed_items_map key iv t : forall fs k, sealed_items key iv k (map (pair t) fs) = sealed_stream key iv k t fs.
Proof. induction fs as [|f fs IH]; intros k; [reflexivity|]. cbn [map sealed_items sealed_stream]. rewrite IH. reflexivity. Qed.
Lemma legal_count fs : Forall legal_fragment fs -> zlen fs <= zlen (concat fs).
Proof. induction 1 as [|f fs [L _] F IH]; [reflexivity|]. cbn [concat]. rewrite zlen_cons, zlen_app. lia. Qed.
Lemma cost_nonneg l : 0 <= cost l.
Proof. induction l as [|[| |] l IH]; cbn [cost fold_right call_cost] in *; try (unfold cost in IH; pose proof (zlen_nonneg buf)); unfold cost in *; lia. Qed.

Lemma good_got o x : good_answer o (Got x) -> exists n, o = Read n.
Proof. destruct o; intros []. eauto. Qed.
(** every history of calls whose writes and closes succeed puts on the wire exactly the records it
    should, sealed under consecutive sequence numbers; on a sound transport they all succeed *)
Lemma calls_emit m key iv : forall l c k as_ c', keyed_w m (c_writer c) key iv k -> k + cost l < 2 ^ 64 -> calls m l c = (as_, c') ->
  (healthy (c_writer c) -> Forall2 good_answer l as_) /\ (Forall2 good_answer l as_ -> exists it, renders l it /\ zlen it <= cost l /\ w_out (c_writer c') = w_out (c_writer c) ++ sealed_items key iv k it /\ keyed_w m (c_writer c') key iv (k + zlen it)).
Proof.
  induction l as [|o l IH]; intros c k as_ c' W K E.
  - cbn in E. apply pair_equal_spec in E as [<- <-]. split; [constructor|]. intros _. exists []. cbn [sealed_items]. rewrite app_nil_r. replace (k + zlen []) with k by (cbn; lia).
    repeat split; try apply W. constructor. cbn; lia.
  - cbn [calls] in E. assert (K' : cost (o :: l) = call_cost o + cost l) by reflexivity. rewrite K' in *. pose proof (cost_nonneg l) as N.
    destruct (do_call m o c) as [a c1] eqn:D. destruct (calls m l c1) as [r c2] eqn:C. apply pair_equal_spec in E as [<- <-].
    destruct o as [n|buf|]; cbn [do_call call_cost] in *.
    + destruct (client_read m n c) as [x c1'] eqn:R. apply pair_equal_spec in D as [<- <-]. apply read_writer in R as [R _]. rewrite <- R in *.
      destruct (IH c1' k r c2 W ltac:(lia) C) as [I1 I2]. split.
      * intros H. constructor; [exact I|auto].
      * intros F. inversion F; subst. destruct (I2 ltac:(assumption)) as (it & J1 & J2 & J3 & J4). exists it. split; [constructor; exact J1|]. split; [lia|]. split; assumption.
    + destruct (write_app m key iv k buf c W ltac:(lia)) as (fs & x & c1' & Ew & F1 & F2 & _ & _ & F3 & F4). rewrite Ew in D. apply pair_equal_spec in D as [<- <-].
      pose proof (legal_count fs F2) as L. rewrite F1 in L. pose proof (zlen_nonneg fs) as L0. split.
      * intros H. destruct F4 as [(-> & _ & W')|(_ & H' & _)]; [|contradiction]. constructor; [reflexivity|]. destruct (IH c1' (k + zlen fs) r c2 W' ltac:(lia) C) as [I1 _]. auto.
      * intros F. inversion F as [|? ? ? ? G F']; subst. cbn [good_answer] in G. destruct F4 as [(_ & O & W')|(-> & _)]; [|discriminate G].
        destruct (IH c1' (k + zlen fs) r c2 W' ltac:(lia) C) as [_ I2]. destruct (I2 F') as (it & J1 & J2 & J3 & J4).
        exists (map (pair ApplicationDataTy) fs ++ it). assert (Lm : zlen (map (pair ApplicationDataTy) fs) = zlen fs) by (unfold zlen; rewrite map_length; reflexivity).
        split; [constructor; auto|]. split; [rewrite zlen_app, Lm; lia|]. split.
        -- rewrite J3, O, sealed_items_app, sealed_items_map, Lm, app_assoc. reflexivity.
        -- rewrite zlen_app, Lm. replace (k + (zlen fs + zlen it)) with (k + zlen fs + zlen it) by lia. exact J4.
    + destruct (close_app m key iv k c W ltac:(lia)) as (x & c1' & Ew & F3 & F4). rewrite Ew in D. apply pair_equal_spec in D as [<- <-]. split.
      * intros H. destruct F4 as [(-> & _ & W')|(_ & H')]; [|contradiction]. constructor; [reflexivity|]. destruct (IH c1' (k + 1) r c2 W' ltac:(lia) C) as [I1 _]. auto.
      * intros F. inversion F as [|? ? ? ? G F']; subst. cbn [good_answer] in G. destruct F4 as [(_ & O & W')|(-> & _)]; [|discriminate G].
        destruct (IH c1' (k + 1) r c2 W' ltac:(lia) C) as [_ I2]. destruct (I2 F') as (it & J1 & J2 & J3 & J4).
        exists ((AlertTy, [x02; x00]) :: it). split; [constructor; auto|]. split; [rewrite zlen_cons; lia|]. split.
        -- rewrite J3, O, <- app_assoc. reflexivity.
        -- rewrite zlen_cons. replace (k + (1 + zlen it)) with (k + 1 + zlen it) by lia. exact J4.
Qed.
