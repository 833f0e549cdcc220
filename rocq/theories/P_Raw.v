(** C100: short and interrupted calls of the transport. *)
From Verif Require Import Spec_Raw P_Util P_Codec P_CodecProps P_RecordW P_RecordR P_Record P_Record2 P_Client P_Client4 P_Accept P_Receive P_Build P_Life P_Broken P_Any.
From Coq Require Import ZifyBool ZifyNat ZifyN.
Local Open Scope list_scope.
Local Open Scope Z_scope.
#[local] Opaque SHA256 HMAC aead_seal aead_decrypt aead_encrypt compute_keys PRF nmul.

(** ** The loop of std *)
Lemma std_nil e : std_write_all e [] = (true, [], e). Proof. destruct e; reflexivity. Qed.
Lemma skipn_firstn_eq {A} n (s : list A) : firstn n s ++ skipn n s = s. Proof. apply firstn_skipn. Qed.
Lemma std_lawful : lawful std_write_all.
Proof.
  intros e. induction e as [|c e IH]; intros s; (destruct s as [|b s]; [reflexivity|]); [reflexivity|]. destruct c as [n| |].
  - cbn [std_write_all]. destruct n as [|n]; [exists b, s; reflexivity|]. specialize (IH (skipn (S n) (b :: s))).
    destruct (std_write_all e (skipn (S n) (b :: s))) as [[ok out] r]. destruct ok.
    + subst out. apply firstn_skipn.
    + destruct IH as (b' & rest & E). exists b', rest. rewrite <- app_assoc, <- E. symmetry. apply firstn_skipn.
  - cbn [std_write_all]. apply IH.
  - cbn [std_write_all]. exists b, s. reflexivity.
Qed.
Lemma std_mild e : Forall mild e -> forall s, exists r, std_write_all e s = (true, s, r) /\ Forall mild r.
Proof.
  induction 1 as [|c e M H IH]; intros s; (destruct s as [|b s]; [eexists; split; [reflexivity|]; auto|]); [eexists; split; [reflexivity|constructor]|].
  destruct c as [n| |]; [|exact (IH (b :: s))|destruct M]. cbn [std_write_all]. destruct n as [|n]; [destruct (M eq_refl)|].
  destruct (IH (skipn (S n) (b :: s))) as (r & -> & Hr). exists r. rewrite firstn_skipn. auto.
Qed.
Lemma firstn_plus {A} n k : forall s : list A, firstn n s ++ firstn k (skipn n s) = firstn (n + k) s.
Proof. induction n as [|n IH]; intros [|x s]; try reflexivity; [cbn; apply firstn_nil|]. cbn [firstn skipn app Nat.add]. rewrite IH. reflexivity. Qed.
Lemma std_stops e1 c e2 : Forall mild e1 -> c = Breaks \/ c = Takes 0 -> forall s, (taken e1 < length s)%nat -> std_write_all (e1 ++ c :: e2) s = (false, firstn (taken e1) s, e2).
Proof.
  intros M C. induction M as [|d e1 Md _ IH]; intros s L; (destruct s as [|b s]; [cbn in L; lia|]).
  - destruct C as [-> | ->]; reflexivity.
  - destruct d as [n| |]; [|exact (IH (b :: s) L)|destruct Md]. destruct n as [|n]; [destruct (Md eq_refl)|]. cbn [app std_write_all taken] in *.
    rewrite IH by (rewrite skipn_length; lia). f_equal. f_equal. apply firstn_plus.
Qed.
(** every outcome of the model comes from calls *)
Lemma std_reaches s p : s <> [] -> (forall k p', p = WFail k :: p' -> (k < length s)%nat) ->
  exists e, let '(ok, out, _) := plan_gives p s in fst (std_write_all e s) = (ok, out).
Proof.
  intros N K. destruct s as [|b s]; [destruct (N eq_refl)|]. destruct p as [|[|k] p]; cbn [plan_gives]; [exists []; reflexivity|exists []; reflexivity|].
  specialize (K k p eq_refl). destruct k as [|k]; [exists [Breaks]; reflexivity|]. exists [Takes (S k); Breaks]. cbn [std_write_all].
  destruct (skipn (S k) (b :: s)) as [|b' s'] eqn:E; [apply (f_equal (@length byte)) in E; rewrite skipn_length in E; cbn [length] in E, K; lia|].
  cbn [fst]. rewrite app_nil_r. reflexivity.
Qed.

(** ** Any lawful transport behaves like one of the model *)
Theorem some_plan {T A} give (t : wants A) : lawful give -> forall x : T, exists p, fst (served plan_gives t p) = fst (served give t x).
Proof.
  intros L. induction t as [a|s good IHg bad IHb]; intros x; [exists []; reflexivity|]. cbn [served].
  pose proof (L x s) as Lx. destruct (give x s) as [[ok out] x1]. destruct ok.
  - subst out. destruct (IHg x1) as (p & E). destruct (served give good x1) as [[a more] x2]. destruct s as [|b s].
    + exists p. cbn [plan_gives]. destruct (served plan_gives good p) as [[a' more'] p2]. exact E.
    + exists (WOk :: p). cbn [plan_gives]. destruct (served plan_gives good p) as [[a' more'] p2]. cbn [fst] in E |- *. congruence.
  - destruct Lx as (b & rest & ->). destruct (IHb x1) as (p & E). destruct (served give bad x1) as [[a more] x2]. exists (WFail (length out) :: p).
    assert (G : plan_gives (WFail (length out) :: p) (out ++ b :: rest) = (false, out, p)).
    { unfold plan_gives. destruct (out ++ b :: rest) as [|y l] eqn:Eq; [destruct out; discriminate|]. rewrite <- Eq, firstn_app, firstn_all, Nat.sub_diag, app_nil_r. reflexivity. }
    rewrite G. destruct (served plan_gives bad p) as [[a' more'] p2]. cbn [fst] in E |- *. congruence.
Qed.
Theorem mild_working {A} (t : wants A) : forall e, Forall mild e -> fst (served std_write_all t e) = fst (served plan_gives t []).
Proof.
  induction t as [a|s good IHg bad IHb]; intros e H; [reflexivity|]. cbn [served]. destruct (std_mild e H s) as (r & -> & Hr).
  replace (plan_gives [] s) with (true, s, @nil wevent) by (destruct s; reflexivity). specialize (IHg r Hr).
  destruct (served std_write_all good r) as [[a more] x2]. destruct (served plan_gives good []) as [[a' more'] p2]. cbn [fst] in IHg |- *. congruence.
Qed.

(** ** The code as such a program *)
Lemma graft {A B} (t : wants A) (P : A -> wants B -> Prop) : (forall a, exists u, P a u) -> exists v, forall p, exists u,
  P (fst (fst (served plan_gives t p))) u /\ served plan_gives v p = let '(a, o, p1) := served plan_gives t p in let '(b, o2, p2) := served plan_gives u p1 in (b, o ++ o2, p2).
Proof.
  intros H. induction t as [a|s good IHg bad IHb].
  - destruct (H a) as (u & Hu). exists u. intros p. exists u. split; [exact Hu|]. cbn [served]. destruct (served plan_gives u p) as [[b o] p2]. reflexivity.
  - destruct IHg as (vg & Hg). destruct IHb as (vb & Hb). exists (Send s vg vb). intros p. cbn [served]. destruct (plan_gives p s) as [[ok out] p1]. destruct ok.
    + destruct (Hg p1) as (u & Pu & E). rewrite E. destruct (served plan_gives good p1) as [[a o] p2]. exists u. split; [exact Pu|]. destruct (served plan_gives u p2) as [[b o2] p3]. rewrite app_assoc. reflexivity.
    + destruct (Hb p1) as (u & Pu & E). rewrite E. destruct (served plan_gives bad p1) as [[a o] p2]. exists u. split; [exact Pu|]. destruct (served plan_gives u p2) as [[b o2] p3]. rewrite app_assoc. reflexivity.
Qed.
(** [put s p o]: the state [s] with what the transport will do and what it took so far *)
Definition asks {S A} (put : S -> list wevent -> bytes -> S) (f : S -> A * S) (s : S) (t : wants (A * S)) : Prop :=
  forall p o, f (put s p o) = let '((x, s1), out, p') := served plan_gives t p in (x, put s1 p' (o ++ out)).
Definition asking {S A} (put : S -> list wevent -> bytes -> S) (f : S -> A * S) : Prop := forall s, exists t, asks put f s t.
Lemma asking_quiet {S A} (put : S -> list wevent -> bytes -> S) (f : S -> A * S) : (forall s, exists x s1, forall p o, f (put s p o) = (x, put s1 p o)) -> asking put f.
Proof. intros H s. destruct (H s) as (x & s1 & E). exists (Done (x, s1)). intros p o. cbn [served]. rewrite E, app_nil_r. reflexivity. Qed.
Lemma asking_then {S A B} put (f : S -> A * S) (g : A -> S -> B * S) : asking put f -> (forall a, asking put (g a)) -> asking put (fun s => let (a, s1) := f s in g a s1).
Proof.
  intros Hf Hg s. destruct (Hf s) as (t & Ht). destruct (graft t (fun a u => asks put (g (fst a)) (snd a) u)) as (v & Hv); [intros [a s1]; exact (Hg a s1)|].
  exists v. intros p o. rewrite Ht. destruct (Hv p) as (u & Hu & ->). destruct (served plan_gives t p) as [[[a s1] out] p1]. cbn [fst snd] in Hu. rewrite Hu.
  destruct (served plan_gives u p1) as [[[b s2] o2] p2]. rewrite app_assoc. reflexivity.
Qed.
Lemma asking_ext {S A} put (f g : S -> A * S) : (forall s, f s = g s) -> asking put g -> asking put f.
Proof. intros E H s. destruct (H s) as (t & Ht). exists t. intros p o. rewrite E. apply Ht. Qed.
Lemma asking_lift {S A} put (x : res A) : @asking S _ put (mlift x).
Proof. apply asking_quiet. intros s. exists x, s. reflexivity. Qed.
Lemma asking_bind {S A B} put (a : M S A) (f : A -> M S B) : asking put a -> (forall y, asking put (f y)) -> asking put (mbind a f).
Proof.
  intros Ha Hf. eapply asking_ext; [|apply (asking_then put a (fun x => match x with Ok y => f y | Err k => mlift (Err k) | Panic => mlift Panic | Diverge => mlift Diverge end) Ha)].
  - intros s. unfold mbind. destruct (a s) as [[y|k| |] s1]; reflexivity.
  - intros [y|k| |]; first [apply Hf|apply asking_lift].
Qed.
Lemma asking_write_all s : asking planned (write_all s).
Proof.
  intros w. exists (Send s (Done (Ok tt, w)) (Done (Err IoFailure, w))). intros p o. cbn [served]. unfold write_all, plan_gives, planned. cbn [w_plan w_out w_enc w_count w_iv w_log].
  destruct s as [|b s]; [cbn [served]; rewrite !app_nil_r; reflexivity|]. destruct p as [|[|k] p]; cbn [served]; rewrite app_nil_r; reflexivity.
Qed.
Lemma asking_record m r : asking planned (write_record m r).
Proof.
  unfold write_record. apply asking_bind.
  - apply asking_quiet. intros w. pose proof (protect_planned r w) as H. destruct (protect r w) as [x w1]. exists x, w1. apply H.
  - intros f. destruct (ENC_RECORD_MAX_LEN <? zlen f); [exact (asking_lift planned Panic)|].
    repeat (apply asking_bind; [apply asking_write_all|intros _]). apply asking_quiet. intros w. pose proof (bump_planned m w) as H. destruct (w_bump m w) as [x w1]. exists x, w1. apply H.
Qed.
Lemma asking_fragments m t fs : asking planned (write_fragments m t fs).
Proof.
  induction fs as [|f fs IH]; [exact (asking_lift planned (Ok tt))|]. cbn [write_fragments]. apply asking_bind; [apply asking_lift|]. intros r. apply asking_bind; [apply asking_record|]. intros _. exact IH.
Qed.
Lemma asking_handshake m h : asking planned (write_handshake m h).
Proof. unfold write_handshake. apply asking_bind; [apply asking_lift|]. intros d. apply asking_fragments. Qed.
Lemma asking_alert m a : asking planned (write_alert m a).
Proof. unfold write_alert. apply asking_bind; [apply asking_lift|]. intros d. apply asking_fragments. Qed.
Lemma asking_enc e : asking planned (w_set_encryptor e).
Proof. apply asking_quiet. intros [o p [x|] k v lg]; eexists _, (Writer [] [] _ _ _ _); intros p' o'; reflexivity. Qed.
Lemma asking_iv v : asking planned (w_set_iv v).
Proof. apply asking_quiet. intros [o p x k [i|] lg]; eexists _, (Writer [] [] _ _ _ _); intros p' o'; reflexivity. Qed.
Lemma asking_app m d : asking planned (write_application_data m d).
Proof.
  intros w. destruct (w_enc w) eqn:E.
  - destruct (asking_fragments m ApplicationDataTy (chunks (Z.to_nat RECORD_MAX_LEN) d) w) as (t & Ht). exists t. intros p o. unfold write_application_data, write_data. cbn [planned w_enc]. rewrite E. apply Ht.
  - exists (Done (Panic, w)). intros p o. unfold write_application_data. cbn [planned w_enc served]. rewrite E, app_nil_r. reflexivity.
Qed.
Lemma asking_writer {A} (a : M writer A) : asking planned a -> asking cplan (on_writer a).
Proof.
  intros H c. destruct (H (c_writer c)) as (t & Ht).
  destruct (graft t (fun x u => u = Done (fst x, Client (c_reader c) (snd x) (c_rng c) (c_buf c)))) as (v & Hv); [eauto|].
  exists v. intros p o. unfold on_writer, cplan. cbn [c_writer c_reader c_rng c_buf]. rewrite Ht. destruct (Hv p) as (u & -> & ->).
  destruct (served plan_gives t p) as [[[x w1] out] p1]. cbn [fst snd served c_writer c_reader c_rng c_buf]. rewrite app_nil_r. reflexivity.
Qed.
Lemma asking_reader {A} (a : M reader A) : asking cplan (on_reader a).
Proof. apply asking_quiet. intros c. destruct (a (c_reader c)) as [x r] eqn:E. exists x, (Client r (c_writer c) (c_rng c) (c_buf c)). intros p o. unfold on_reader, cplan. cbn [c_reader c_writer c_rng c_buf]. rewrite E. reflexivity. Qed.
Lemma asking_rng {A} (a : M rng A) : asking cplan (on_rng a).
Proof. apply asking_quiet. intros c. destruct (a (c_rng c)) as [x g] eqn:E. exists x, (Client (c_reader c) (c_writer c) g (c_buf c)). intros p o. unfold on_rng, cplan. cbn [c_reader c_writer c_rng c_buf]. rewrite E. reflexivity. Qed.
Lemma asking_expect {A} m (pick : handshake -> option A) : asking cplan (expect m pick).
Proof. apply asking_bind; [apply asking_reader|]. intros h. destruct (pick h) as [a|]; [exact (asking_lift cplan (Ok a))|exact (asking_lift cplan (Err UnexpectedMessage))]. Qed.
Lemma asking_hands m : asking cplan (client_handshake m).
Proof.
  unfold client_handshake.
  repeat (apply asking_bind; [first [apply asking_lift|apply asking_reader|apply asking_rng|apply asking_expect|apply asking_writer; first [apply asking_handshake|apply asking_fragments|apply asking_enc|apply asking_iv]]|intros; repeat match goal with y : (_ * _)%type |- _ => destruct y end]).
  match goal with |- asking _ (if ?b then _ else _) => destruct b end; [exact (asking_lift cplan (Ok tt))|exact (asking_lift cplan (Err DecryptError))].
Qed.
Lemma asking_send m k : asking cplan (send_tls_alert m k).
Proof.
  assert (G : asking cplan (fun c => match on_writer (write_alert m (Alert AL_fatal (alert_from_err k))) c with (Ok _, c') => (Ok k, c') | (Err k', c') => (Ok k', c') | (Panic, c') => (Panic, c') | (Diverge, c') => (Diverge, c') end)).
  { eapply asking_ext; [|apply (asking_then cplan (on_writer (write_alert m (Alert AL_fatal (alert_from_err k)))) (fun x => match x with Ok _ => mlift (Ok k) | Err k' => mlift (Ok k') | Panic => mlift Panic | Diverge => mlift Diverge end))].
    - intros c. cbv beta. destruct (on_writer _ c) as [[[]|k'| |] c1]; reflexivity.
    - apply asking_writer, asking_alert.
    - intros [[]|k'| |]; apply asking_lift. }
  destruct k; first [exact G|exact (asking_lift cplan (Ok IoFailure))].
Qed.
Lemma asking_or {A} m (a : M client A) : asking cplan a -> asking cplan (or_alert m a).
Proof.
  intros Ha. eapply asking_ext; [|apply (asking_then cplan a (fun x => match x with Err k => fun c => (let (y, c') := send_tls_alert m k c in mlift (match y with Ok k' => Err k' | Err k' => Err k' | Panic => Panic | Diverge => Diverge end) c') | _ => mlift x end) Ha)].
  - intros c. unfold or_alert. destruct (a c) as [[y|k| |] c1]; try reflexivity. cbv beta iota. destruct (send_tls_alert m k c1) as [[k'|k'| |] c2]; reflexivity.
  - intros [y|k| |]; try apply asking_lift. apply (asking_then cplan (send_tls_alert m k) (fun y => mlift (match y with Ok k' => Err k' | Err k' => Err k' | Panic => Panic | Diverge => Diverge end))); [apply asking_send|]. intros y. apply asking_lift.
Qed.
Lemma asking_write m d : asking cplan (client_write m d).
Proof. unfold client_write. apply asking_bind; [apply asking_or, asking_writer, asking_app|]. intros _. exact (asking_lift cplan (Ok (zlen d))). Qed.
Lemma asking_close m : asking cplan (client_close m). Proof. apply asking_writer, asking_alert. Qed.
Lemma read_loop_quiet m f : forall n done c, exists x c1, forall p o, client_read_loop m f n done (cplan c p o) = (x, cplan c1 p o).
Proof.
  induction f as [|f IH]; intros n done c; cbn [client_read_loop]; (destruct (length done <? n)%nat; [|exists (Ok done), c; reflexivity]); [exists Diverge, c; reflexivity|].
  destruct c as [r w g b]. unfold cplan. cbn [c_buf c_reader c_writer c_rng]. destruct b as [|b0 b].
  - unfold on_reader. cbn [c_buf c_reader c_writer c_rng]. destruct (read_application_data m r) as [[d|k| |] r1]; cbn [c_buf c_reader c_writer c_rng].
    + match goal with |- context [client_read_loop m f n ?dn (Client r1 _ g ?bf)] => destruct (IH n dn (Client r1 w g bf)) as (x & c1 & E) end.
      exists x, c1. intros p o. exact (E p o).
    + exists (Ok done), (Client r1 w g []). reflexivity.
    + exists Panic, (Client r1 w g []). reflexivity.
    + exists Diverge, (Client r1 w g []). reflexivity.
  - match goal with |- context [client_read_loop m f n ?dn (Client r _ g ?bf)] => destruct (IH n dn (Client r w g bf)) as (x & c1 & E) end.
    exists x, c1. intros p o. exact (E p o).
Qed.
Lemma asking_read m n : asking cplan (client_read m n).
Proof. apply asking_quiet. intros c. apply (read_loop_quiet m (S (n + src_size (r_src (c_reader c)))) n [] c). Qed.
Lemma asking_call m o : asking cplan (do_call m o).
Proof.
  destruct o as [n|d|]; unfold do_call.
  - apply (asking_then cplan (client_read m n) (fun x c => (Got x, c)) (asking_read m n)). intros x. apply asking_quiet. intros c. exists (Got x), c. reflexivity.
  - apply (asking_then cplan (client_write m d) (fun x c => (Wrote x, c)) (asking_write m d)). intros x. apply asking_quiet. intros c. exists (Wrote x), c. reflexivity.
  - apply (asking_then cplan (client_close m) (fun x c => (Closed x, c)) (asking_close m)). intros x. apply asking_quiet. intros c. exists (Closed x), c. reflexivity.
Qed.
Lemma asking_use m q : asking cplan (use m q).
Proof.
  induction q as [|o next IH]; [apply asking_quiet; intros c; exists [], c; reflexivity|]. cbn [use].
  apply (asking_then cplan (do_call m o) (fun a c1 => if crashed a then ([a], c1) else let (l, c2) := use m (next a) c1 in (a :: l, c2)) (asking_call m o)).
  intros a. destruct (crashed a); [apply asking_quiet; intros c; exists [a], c; reflexivity|].
  apply (asking_then cplan (use m (next a)) (fun l c2 => (a :: l, c2)) (IH a)). intros l. apply asking_quiet. intros c. exists (a :: l), c. reflexivity.
Qed.
(** a whole session *)
Theorem session_asks m q s g : exists t : wants (res unit * list answer), forall p, exists c,
  sitting m q s p g = (fst (fst (fst (served plan_gives t p))), snd (fst (fst (served plan_gives t p))), c) /\ w_out (c_writer c) = snd (fst (served plan_gives t p)).
Proof.
  assert (H : asking cplan (fun c => let (x, c1) := or_alert m (client_handshake m) c in match x with Ok _ => let (l, c2) := use m q c1 in ((x, l), c2) | _ => ((x, []), c1) end)).
  { apply (asking_then cplan (or_alert m (client_handshake m)) (fun x c1 => match x with Ok _ => let (l, c2) := use m q c1 in ((x, l), c2) | _ => ((x, []), c1) end)); [apply asking_or, asking_hands|].
    intros x. destruct x as [u|k| |].
    - apply (asking_then cplan (use m q) (fun l c2 => ((Ok u, l), c2)) (asking_use m q)). intros l. apply asking_quiet. intros c. exists (Ok u, l), c. reflexivity.
    - apply asking_quiet. intros c. exists (Err k, []), c. reflexivity.
    - apply asking_quiet. intros c. exists (Panic, []), c. reflexivity.
    - apply asking_quiet. intros c. exists (Diverge, []), c. reflexivity. }
  destruct (H (client_init s [] g)) as (t & Ht). destruct (graft t (fun x u => u = Done (fst x))) as (v & Hv); [eauto|].
  exists v. intros p. specialize (Ht p []). destruct (Hv p) as (u & -> & ->). change (cplan (client_init s [] g) p []) with (client_init s p g) in Ht.
  destruct (served plan_gives t p) as [[[[x l] c1] out] p1]. cbn [fst snd served app] in Ht |- *. exists (cplan c1 p1 out). rewrite app_nil_r. split; [|reflexivity].
  unfold sitting, client_new. destruct (or_alert m (client_handshake m) (client_init s p g)) as [y c2]. destruct y as [[]|k| |].
  - destruct (use m q c2) as [l2 c3]. congruence.
  - congruence.
  - congruence.
  - congruence.
Qed.
Theorem any_transport m q s g : exists t : wants (res unit * list answer),
  (forall p, exists c, sitting m q s p g = (fst (fst (fst (served plan_gives t p))), snd (fst (fst (served plan_gives t p))), c) /\ w_out (c_writer c) = snd (fst (served plan_gives t p))) /\
  (forall T (give : T -> bytes -> bool * bytes * T) x, lawful give -> exists p c, sitting m q s p g = (fst (fst (fst (served give t x))), snd (fst (fst (served give t x))), c) /\ w_out (c_writer c) = snd (fst (served give t x))) /\
  (forall e, Forall mild e -> exists c, sitting m q s [] g = (fst (fst (fst (served std_write_all t e))), snd (fst (fst (served std_write_all t e))), c) /\ w_out (c_writer c) = snd (fst (served std_write_all t e))).
Proof.
  destruct (session_asks m q s g) as (t & H). exists t. split; [exact H|]. split.
  - intros T give x L. destruct (some_plan give t L x) as (p & E). destruct (H p) as (c & Hc). exists p, c. rewrite E in Hc. exact Hc.
  - intros e M. destruct (H []) as (c & Hc). exists c. rewrite (mild_working t e M). exact Hc.
Qed.
(** ** Interrupted reads *)
Theorem read_not_retried : exists m s g, (exists c, client_new m s [] g = (Ok tt, c)) /\ (exists c, client_new m (RErr :: s) [] g = (Err IoFailure, c)).
Proof.
  destruct (reading_client Release) as (s & c & _ & _ & E & _). exists Release, s, one_tape. split; [exists c; exact E|].
  destruct (early_run Release) as (B & _). 
  destruct (proj2 (venture_iff Release (RErr :: s) [] one_tape (Err IoFailure) (flight_hello (firstn 32 one_tape)) eq_refl)) as (c' & E' & _); [|exists c'; exact E'].
  eapply V_quiet; [exact B|intros e X; congruence|]. apply (delivery_free HandshakeTy x03 x03). vm_compute. discriminate.
Qed.
