(** Proofs about src/client.rs after the handshake: [read], [write]. *)
From Verif Require Import Spec_Client P_Util P_Codec P_RecordW P_RecordR P_Record P_Record2 P_Aead P_Halt P_Client.
From Coq Require Import ZifyBool ZifyNat ZifyN.
Local Open Scope Z_scope.
#[local] Opaque aead_seal aead_decrypt aead_encrypt.

(** ** The read loop as a relation *)
Definition with_buf (c : client) (r : reader) (b : bytes) : client := Client r (c_writer c) (c_rng c) b.
Inductive rd (m : mode) (len : nat) : bytes -> client -> res bytes -> client -> Prop :=
| Rd_full done c : (len <= length done)%nat -> rd m len done c (Ok done) c
| Rd_copy done c x c' : (length done < len)%nat -> c_buf c <> [] ->
    rd m len (done ++ firstn (len - length done) (c_buf c)) (with_buf c (c_reader c) (skipn (len - length done) (c_buf c))) x c' ->
    rd m len done c x c'
| Rd_data done c d r' x c' : (length done < len)%nat -> c_buf c = [] -> read_application_data m (c_reader c) = (Ok d, r') ->
    rd m len (done ++ firstn (len - length done) d) (with_buf c r' (skipn (len - length done) d)) x c' -> rd m len done c x c'
| Rd_err done c k r' : (length done < len)%nat -> c_buf c = [] -> read_application_data m (c_reader c) = (Err k, r') ->
    rd m len done c (Ok done) (with_buf c r' [])
| Rd_panic done c r' : (length done < len)%nat -> c_buf c = [] -> read_application_data m (c_reader c) = (Panic, r') ->
    rd m len done c Panic (with_buf c r' [])
| Rd_diverge done c r' : (length done < len)%nat -> c_buf c = [] -> read_application_data m (c_reader c) = (Diverge, r') ->
    rd m len done c Diverge (with_buf c r' []).

Lemma firstn_min {A} n (l : list A) : firstn (Nat.min n (length l)) l = firstn n l.
Proof. destruct (Nat.le_ge_cases n (length l)); [rewrite Nat.min_l by assumption; reflexivity|]. rewrite Nat.min_r, firstn_all, firstn_all2 by assumption. reflexivity. Qed.
Lemma skipn_min {A} n (l : list A) : skipn (Nat.min n (length l)) l = skipn n l.
Proof. destruct (Nat.le_ge_cases n (length l)); [rewrite Nat.min_l by assumption; reflexivity|]. rewrite Nat.min_r, skipn_all, skipn_all2 by assumption. reflexivity. Qed.

Lemma pull_src m : forall r msg r', pull m r = (Ok msg, r') -> (src_size (r_src r') < src_size (r_src r))%nat.
Proof.
  intros r. induction r as [r IH] using (pull_ind m). intros msg r'. rewrite pull_eq. unfold mbind.
  destruct (read_record m r) as [[rec|k| |] r1] eqn:E; try discriminate.
  destruct (handle_record rec r1) as [[[msg'|]|k| |] r2] eqn:F; try discriminate.
  - intros H. apply pair_equal_spec in H as [_ <-]. apply read_record_inv in E as (t & maj & min & frag & f & c & _ & _ & _ & _ & Z & _).
    destruct (handle_src _ _ _ _ F) as (S & _). rewrite S. lia.
  - intros H. pose proof (IH _ _ _ eq_refl F _ _ H) as L. apply read_record_inv in E as (t & maj & min & frag & f & c & _ & _ & _ & _ & Z & _).
    destruct (handle_src _ _ _ _ F) as (S & _). rewrite S in L. lia.
Qed.
Lemma read_app_src m r d r' : read_application_data m r = (Ok d, r') -> (src_size (r_src r') < src_size (r_src r))%nat.
Proof.
  unfold read_application_data, mbind. destruct (r_dec r); [|discriminate]. rewrite read_message_eq.
  destruct (get_message (r_buf r)) as [[[h|]| | |] b]; try discriminate.
  destruct (pull m (set_buf r b)) as [[msg| | |] r1] eqn:E; try discriminate.
  apply pull_src in E. cbn [set_buf r_src] in E.
  destruct msg as [h| |[l []]|d']; try discriminate; intros H; apply pair_equal_spec in H as [_ <-]; exact E.
Qed.

Lemma loop_rd m len : forall fuel done c, (len - length done + src_size (r_src (c_reader c)) < fuel)%nat ->
  rd m len done c (fst (client_read_loop m fuel len done c)) (snd (client_read_loop m fuel len done c)).
Proof.
  induction fuel as [|f IH]; intros done c F; [lia|]. cbn [client_read_loop].
  destruct (Nat.ltb_spec (length done) len) as [L|L]; [|cbn [mret fst snd]; apply Rd_full; exact L].
  cbv beta zeta. destruct (c_buf c) as [|b bs] eqn:B.
  - unfold on_reader. destruct (read_application_data m (c_reader c)) as [x r1] eqn:E.
    destruct x as [d|k| |]; cbn [c_reader c_writer c_rng c_buf fst snd].
    + rewrite B. cbn [app]. rewrite firstn_min, skipn_min. eapply Rd_data; [exact L|exact B|exact E|].
      apply read_app_src in E. apply IH. cbn [with_buf c_reader]. rewrite app_length, firstn_length. lia.
    + rewrite B. eapply Rd_err; [exact L|exact B|exact E].
    + rewrite B. eapply Rd_panic; [exact L|exact B|exact E].
    + rewrite B. eapply Rd_diverge; [exact L|exact B|exact E].
  - rewrite <- B. rewrite firstn_min, skipn_min. apply Rd_copy; [exact L|congruence|].
    apply IH. cbn [with_buf c_reader]. rewrite app_length, firstn_length. rewrite B. cbn [length]. lia.
Qed.
Lemma read_rd m len c x c' : client_read m len c = (x, c') -> rd m len [] c x c'.
Proof. intros E. unfold client_read in E. pose proof (loop_rd m len (S (len + src_size (r_src (c_reader c)))) [] c) as H. rewrite E in H. apply H. cbn [length]. lia. Qed.
Lemma rd_det m len done c x c1 : rd m len done c x c1 -> forall y c2, rd m len done c y c2 -> y = x /\ c2 = c1.
Proof.
  induction 1; intros y cc Q; inversion Q; subst; try (exfalso; congruence); try (exfalso; lia); auto;
    (match goal with A : ?t = (?a, ?b), B : ?t = (?p, ?q) |- _ => rewrite A in B; inversion B; subst end; auto).
Qed.
Lemma rd_read m len c x c' : rd m len [] c x c' -> client_read m len c = (x, c').
Proof.
  intros H. destruct (client_read m len c) as [y c2] eqn:E. apply read_rd in E. destruct (rd_det _ _ _ _ _ _ H _ _ E) as [-> ->]. reflexivity.
Qed.

(** ** C30 *)
Lemma read_app_keys m r x r' : read_application_data m r = (x, r') -> r_dec r' = r_dec r /\ r_iv r' = r_iv r.
Proof.
  intros E. destruct (read_app_absorbs m r) as (recs & A & _). rewrite E in A. eapply absorbs_dec. exact A.
Qed.
Lemma rd_halts m len done c x c' : rd m len done c x c' -> terminates (r_dec (c_reader c)) -> match x with Ok _ | Panic => True | _ => False end.
Proof.
  induction 1; intros T; try exact I.
  - apply IHrd. exact T.
  - apply IHrd. cbn [with_buf c_reader]. apply read_app_keys in H1 as [-> _]. exact T.
  - pose proof (read_app_halts m _ T) as X. rewrite H1 in X. exact X.
Qed.
Lemma client_read_halts m len c : terminates (r_dec (c_reader c)) -> match fst (client_read m len c) with Ok _ | Panic => True | _ => False end.
Proof. intros T. destruct (client_read m len c) as [x c'] eqn:E. apply read_rd in E. eapply rd_halts; eauto. Qed.

Lemma rd_no_err m len done c x c' k : rd m len done c x c' -> x = Err k -> False.
Proof. induction 1; congruence || auto. Qed.

(** ** C25: conservation *)
Lemma rd_conserves m len done c x c' : rd m len done c x c' -> exists n,
  let ins := fst (reads (read_application_data m) n (c_reader c)) in
  c_reader c' = snd (reads (read_application_data m) n (c_reader c)) /\
  match x with
  | Ok out => done ++ c_buf c ++ concat (oks ins) = out ++ c_buf c' /\ Forall fine ins /\
      ((length done <= len)%nat -> (length out <= len)%nat) /\
      ((length out < len)%nat -> c_buf c' = [] /\ exists ins' k, ins = ins' ++ [Err k])
  | _ => c_buf c' = []
  end.
Proof.
  induction 1 as [done c L|done c x c' L B R IH|done c d r' x c' L B E R IH|done c k r' L B E|done c r' L B E|done c r' L B E].
  - exists 0%nat. cbn [reads fst snd oks concat]. split; [reflexivity|]. rewrite app_nil_r. split; [reflexivity|]. split; [constructor|]. split; [auto|lia].
  - destruct IH as (n & H1 & H2). cbn [with_buf c_reader c_buf] in *. exists n. cbv zeta in *. split; [exact H1|].
    destruct x; try exact H2. destruct H2 as (H2 & H3 & H4 & H5). split; [|split; [exact H3|split; [|exact H5]]].
    + rewrite <- app_assoc in H2. rewrite (app_assoc (firstn _ _) (skipn _ _)), firstn_skipn in H2. exact H2.
    + intros _. apply H4. rewrite app_length, firstn_length. lia.
  - destruct IH as (n & H1 & H2). cbn [with_buf c_reader c_buf] in *. exists (S n). cbn [reads]. rewrite E. cbv zeta in *.
    destruct (reads (read_application_data m) n r') as [ins r2]. cbn [fst snd] in *. split; [exact H1|].
    destruct x; try exact H2. destruct H2 as (H2 & H3 & H4 & H5). split; [|split; [constructor; [exact I|exact H3]|split]].
    + rewrite B. cbn [app oks concat]. rewrite <- app_assoc in H2. rewrite (app_assoc (firstn _ _) (skipn _ _)), firstn_skipn in H2. exact H2.
    + intros _. apply H4. rewrite app_length, firstn_length. lia.
    + intros Ho. destruct (H5 Ho) as (Hb & ins' & k & ->). split; [exact Hb|]. exists (Ok d :: ins'), k. reflexivity.
  - exists 1%nat. cbn [reads]. rewrite E. cbn [fst snd oks concat with_buf c_reader c_buf]. split; [reflexivity|]. rewrite B.
    split; [reflexivity|]. split; [repeat constructor|]. split; [auto|]. intros _. split; [reflexivity|]. exists [], k. reflexivity.
  - exists 1%nat. cbn [reads]. rewrite E. cbn [fst snd]. split; reflexivity.
  - exists 1%nat. cbn [reads]. rewrite E. cbn [fst snd]. split; reflexivity.
Qed.

Lemma reads_more {A} (act : M reader A) n1 n2 : forall r, Forall fine (fst (reads act n1 r)) ->
  reads act (n1 + n2) r = (fst (reads act n1 r) ++ fst (reads act n2 (snd (reads act n1 r))), snd (reads act n2 (snd (reads act n1 r)))).
Proof.
  induction n1 as [|n1 IH]; intros r F; [cbn; apply surjective_pairing|]. cbn [reads Nat.add] in *.
  destruct (act r) as [[a|k| |] r1].
  - specialize (IH r1). destruct (reads act n1 r1) as [xs r2]. cbn [fst snd] in *. inversion F; subst. rewrite IH by assumption. reflexivity.
  - specialize (IH r1). destruct (reads act n1 r1) as [xs r2]. cbn [fst snd] in *. inversion F; subst. rewrite IH by assumption. reflexivity.
  - cbn [fst] in F. inversion F; subst. contradiction.
  - cbn [fst] in F. inversion F; subst. contradiction.
Qed.
Lemma oks_app {A} (a b : list (res A)) : oks (a ++ b) = oks a ++ oks b.
Proof. induction a as [|[x|k| |] a IH]; cbn; congruence. Qed.
Lemma fine_app {A} (a b : list (res A)) : Forall fine (a ++ b) <-> Forall fine a /\ Forall fine b.
Proof. apply Forall_app. Qed.

(** what a history of reads returns, and what is lost in a read that panics *)
Lemma reads_conserve m : forall sizes c, exists n lost,
  let outs := fst (client_reads m sizes c) in let c' := snd (client_reads m sizes c) in
  let ins := fst (reads (read_application_data m) n (c_reader c)) in
  c_reader c' = snd (reads (read_application_data m) n (c_reader c)) /\
  c_buf c ++ concat (oks ins) = concat (oks outs) ++ lost ++ c_buf c' /\
  (Forall fine outs -> lost = [] /\ Forall fine ins).
Proof.
  induction sizes as [|len sizes IH]; intros c.
  - exists 0%nat, []. cbn. rewrite app_nil_r. repeat split; auto.
  - cbn [client_reads]. destruct (client_read m len c) as [x c1] eqn:E. apply read_rd in E. pose proof E as R. apply rd_conserves in E as (n & H1 & H2). cbv zeta in H1, H2.
    destruct x as [out|k| |].
    + destruct H2 as (H2 & H3 & _). destruct (IH c1) as (n2 & lost & J1 & J2 & J3). cbv zeta in *.
      destruct (client_reads m sizes c1) as [outs c'] eqn:Eo. cbn [fst snd] in *.
      exists (n + n2)%nat, lost. rewrite reads_more by exact H3. cbn [fst snd]. rewrite <- H1.
      split; [exact J1|]. split.
      * cbn [oks concat]. rewrite oks_app, concat_app, app_assoc. cbn [app] in H2. rewrite H2, <- !app_assoc. f_equal. exact J2.
      * intros F. inversion F; subst. destruct (J3 ltac:(assumption)) as [-> Fi]. split; [reflexivity|]. apply fine_app. auto.
    + destruct (rd_no_err _ _ _ _ _ _ _ R eq_refl).
    + exists n, (c_buf c ++ concat (oks (fst (reads (read_application_data m) n (c_reader c))))). cbn [fst snd oks concat app].
      rewrite H2, app_nil_r. split; [exact H1|]. split; [reflexivity|]. intros F. inversion F; subst. contradiction.
    + exists n, (c_buf c ++ concat (oks (fst (reads (read_application_data m) n (c_reader c))))). cbn [fst snd oks concat app].
      rewrite H2, app_nil_r. split; [exact H1|]. split; [reflexivity|]. intros F. inversion F; subst. contradiction.
Qed.

(** prefix order on what two readers' histories deliver *)
Lemma reads_prefix m n1 n2 r : (n1 <= n2)%nat -> exists more,
  concat (oks (fst (reads (read_application_data m) n2 r))) = concat (oks (fst (reads (read_application_data m) n1 r))) ++ more.
Proof.
  revert n2 r. induction n1 as [|n1 IH]; intros n2 r L; [eexists; reflexivity|]. destruct n2 as [|n2]; [lia|]. cbn [reads].
  destruct (read_application_data m r) as [[d|k| |] r1]; try (exists []; rewrite app_nil_r; reflexivity).
  - destruct (IH n2 r1 ltac:(lia)) as (more & H). destruct (reads _ n1 r1), (reads _ n2 r1). cbn [fst oks concat] in *.
    exists more. rewrite H, app_assoc. reflexivity.
  - destruct (IH n2 r1 ltac:(lia)) as (more & H). destruct (reads _ n1 r1), (reads _ n2 r1). cbn [fst oks concat] in *.
    exists more. exact H.
Qed.
Lemma prefixes_comparable (a x b y z : bytes) : a ++ x = z -> b ++ y = z -> comparable a b.
Proof.
  revert b z. induction a as [|h a IH]; intros b z A B; [exists b; right; reflexivity|].
  destruct b as [|k b]; [exists (h :: a); left; reflexivity|]. destruct z as [|q z]; [discriminate|].
  cbn in A, B. injection A as -> A. injection B as -> B. destruct (IH b z A B) as (more & [-> | ->]); exists more; auto.
Qed.
Lemma sizes_irrelevant m s1 s2 c : comparable (concat (oks (fst (client_reads m s1 c)))) (concat (oks (fst (client_reads m s2 c)))).
Proof.
  destruct (reads_conserve m s1 c) as (n1 & l1 & _ & A & _), (reads_conserve m s2 c) as (n2 & l2 & _ & B & _). cbv zeta in A, B.
  destruct (Nat.le_ge_cases n1 n2) as [L|L]; destruct (reads_prefix m _ _ (c_reader c) L) as (more & H).
  - rewrite H in B. rewrite app_assoc, A in B. rewrite <- !app_assoc in B. eapply prefixes_comparable; [exact B|reflexivity].
  - rewrite H in A. rewrite app_assoc, B in A. rewrite <- !app_assoc in A. eapply prefixes_comparable; [reflexivity|exact A].
Qed.
