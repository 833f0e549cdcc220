(** C96: transports that may fail at any read and at any write. *)
From Verif Require Import Spec_Any P_Util P_Codec P_CodecProps P_RecordW P_RecordR P_Record P_Record2 P_Aead P_Ecdhe P_Halt P_Client P_Client2 P_App P_App2 P_Panic P_Client3 P_Fault P_Client4 P_Client5 P_Pending P_Open P_Eof P_Api P_Ops P_Accept P_Receive P_Build P_Talk P_Talk2 P_Talk4 P_Std P_Life P_Broken.
From Coq Require Import ZifyBool ZifyNat ZifyN.
Local Open Scope list_scope.
Local Open Scope Z_scope.
#[local] Opaque SHA256 HMAC aead_seal aead_decrypt aead_encrypt compute_keys PRF nmul.

(** ** Slices *)
Lemma given_app l1 : forall p l2, given_out p (l1 ++ l2) =
  let '(ok, out, p1) := given_out p l1 in if ok then let '(ok2, out2, p2) := given_out p1 l2 in (ok2, out ++ out2, p2) else (false, out, p1).
Proof.
  induction l1 as [|s l1 IH]; intros p l2.
  - cbn [app given_out]. destruct (given_out p l2) as [[ok out] p']. reflexivity.
  - cbn [app given_out]. destruct s as [|x s]; [apply IH|]. destruct p as [|[|k] p]; [| |reflexivity]; rewrite IH.
    + destruct (given_out [] l1) as [[ok out] p1]. destruct ok; [|reflexivity]. destruct (given_out p1 l2) as [[ok2 out2] p2]. rewrite app_assoc. reflexivity.
    + destruct (given_out p l1) as [[ok out] p1]. destruct ok; [|reflexivity]. destruct (given_out p1 l2) as [[ok2 out2] p2]. rewrite app_assoc. reflexivity.
Qed.
Lemma given_all l : forall p out p', given_out p l = (true, out, p') -> out = concat l.
Proof.
  induction l as [|s l IH]; intros p out p' E; cbn [given_out concat] in *; [congruence|]. destruct s as [|x s]; [exact (IH _ _ _ E)|].
  destruct p as [|[|k] p]; [| |discriminate].
  - destruct (given_out [] l) as [[ok o] p1] eqn:G. injection E as -> <- <-. rewrite (IH _ _ _ G). reflexivity.
  - destruct (given_out p l) as [[ok o] p1] eqn:G. injection E as -> <- <-. rewrite (IH _ _ _ G). reflexivity.
Qed.
Lemma given_cut l : forall p out p', given_out p l = (false, out, p') -> exists unsent, concat l = out ++ unsent.
Proof.
  induction l as [|s l IH]; intros p out p' E; cbn [given_out concat] in *; [congruence|]. destruct s as [|x s]; [exact (IH _ _ _ E)|].
  destruct p as [|[|k] p].
  - destruct (given_out [] l) as [[ok o] p1] eqn:G. injection E as -> <- <-. destruct (IH _ _ _ G) as (u & ->). exists u. cbn [app]. rewrite <- ?app_assoc. reflexivity.
  - destruct (given_out p l) as [[ok o] p1] eqn:G. injection E as -> <- <-. destruct (IH _ _ _ G) as (u & ->). exists u. cbn [app]. rewrite <- ?app_assoc. reflexivity.
  - injection E as <- <-. exists (skipn k (x :: s) ++ concat l). rewrite (app_assoc (firstn k (x :: s))), firstn_skipn. reflexivity.
Qed.
Lemma sliced_concat bs l : sliced bs l -> concat l = bs.
Proof. induction 1 as [|t maj min f bs l H S IH]; [reflexivity|]. cbn [concat app]. rewrite IH. unfold wire. rewrite <- !app_assoc. reflexivity. Qed.
Lemma sliced_app a la b lb : sliced a la -> sliced b lb -> sliced (a ++ b) (la ++ lb).
Proof. induction 1 as [|t maj min f bs l H S IH]; intros B; [exact B|]. rewrite <- app_assoc. cbn [app]. constructor; auto. Qed.
Lemma app_eq_len {A} : forall a c b d : list A, a ++ b = c ++ d -> length a = length c -> a = c /\ b = d.
Proof. induction a as [|x a IH]; intros [|y c] b d E L; try discriminate L; [auto|]. cbn [app] in E. injection E as -> E. destruct (IH c b d E) as [-> ->]; [cbn [length] in L; lia|auto]. Qed.
Lemma wire_parts t maj min f bs : wire t maj min f ++ bs = z2b (rfc_content_type t) :: maj :: min :: be 2 (zlen f) ++ f ++ bs.
Proof. unfold wire. rewrite <- !app_assoc. reflexivity. Qed.
Lemma wire_first t maj min f bs t' maj' min' f' bs' : zlen f <= 18432 -> zlen f' <= 18432 -> wire t maj min f ++ bs = wire t' maj' min' f' ++ bs' ->
  z2b (rfc_content_type t) = z2b (rfc_content_type t') /\ maj = maj' /\ min = min' /\ f = f' /\ bs = bs'.
Proof.
  intros L L' E. rewrite !wire_parts in E. remember (be 2 (zlen f)) as h eqn:Eh. remember (be 2 (zlen f')) as h' eqn:Eh'. injection E as E1 -> -> E.
  apply app_eq_len in E as [El E]; [|subst h h'; rewrite !be_length; reflexivity]. subst h h'.
  pose proof (zlen_nonneg f). pose proof (zlen_nonneg f'). apply be_inj in El; [|cbn; lia|cbn; lia]. apply app_eq_len in E as [-> ->]; [auto|unfold zlen in El; lia].
Qed.
Lemma sliced_one bs l : sliced bs l -> forall l', sliced bs l' -> l' = l.
Proof.
  induction 1 as [|t maj min f bs l H S IH]; intros l' S'.
  - remember (@nil byte) as b eqn:Eb. destruct S' as [|t maj min f bs0 l0 H0 S0]; [reflexivity|discriminate].
  - remember (wire t maj min f ++ bs) as b eqn:Eb. destruct S' as [|t0 maj0 min0 f0 bs0 l0 H0 S0]; [discriminate|].
    destruct (wire_first _ _ _ _ _ _ _ _ _ _ H0 H Eb) as (-> & -> & -> & -> & ->). rewrite (IH _ S0). reflexivity.
Qed.
Lemma delivery_one p bs ok out p' ok2 out2 p2 : delivery p bs ok out p' -> delivery p bs ok2 out2 p2 -> ok2 = ok /\ out2 = out /\ p2 = p'.
Proof. intros (l & S & G) (l2 & S2 & G2). rewrite (sliced_one _ _ S _ S2) in G2. rewrite G in G2. injection G2 as <- <- <-. auto. Qed.
Lemma delivery_nil p : delivery p [] true [] p.
Proof. exists []. split; [constructor|reflexivity]. Qed.
Lemma delivery_app p a b ok out p' oka outa pa okb outb pb : delivery p a oka outa pa -> delivery pa b okb outb pb -> delivery p (a ++ b) ok out p' ->
  (ok, out, p') = if oka then (okb, outa ++ outb, pb) else (false, outa, pa).
Proof.
  intros (la & Sa & Ga) (lb & Sb & Gb) (l & Sl & G). rewrite (sliced_one _ _ (sliced_app _ _ _ _ Sa Sb) _ Sl) in G.
  rewrite given_app, Ga in G. destruct oka; [|symmetry; exact G]. rewrite Gb in G. symmetry. exact G.
Qed.
Lemma delivery_true p bs out p' : delivery p bs true out p' -> out = bs.
Proof. intros (l & S & G). rewrite (given_all _ _ _ _ G). apply sliced_concat, S. Qed.
Lemma delivery_false p bs out p' : delivery p bs false out p' -> exists unsent, bs = out ++ unsent.
Proof. intros (l & S & G). destruct (given_cut _ _ _ _ G) as (u & E). exists u. rewrite <- E. symmetry. apply sliced_concat, S. Qed.

(** ** The writer *)
Definition planned (w : writer) (p : list wevent) (o : bytes) : writer := Writer o p (w_enc w) (w_count w) (w_iv w) (w_log w).
Lemma planned_same w : planned w (w_plan w) (w_out w) = w. Proof. destruct w; reflexivity. Qed.
Lemma emit_given bss : forall w, emit bss w = let '(ok, out, p') := given_out (w_plan w) bss in (provided ok (Ok tt), planned w p' (w_out w ++ out)).
Proof.
  induction bss as [|s bss IH]; intros w; cbn [emit given_out].
  - cbn [provided]. rewrite app_nil_r, planned_same. reflexivity.
  - unfold mbind, write_all. destruct s as [|x s]; [apply IH|]. destruct (w_plan w) as [|[|k] p]; [| |reflexivity]; rewrite IH; cbn [w_plan w_out].
    + destruct (given_out [] bss) as [[ok out] p']. unfold planned. cbn [w_enc w_count w_iv w_log]. rewrite <- app_assoc. reflexivity.
    + destruct (given_out p bss) as [[ok out] p']. unfold planned. cbn [w_enc w_count w_iv w_log]. rewrite <- app_assoc. reflexivity.
Qed.
Lemma protect_planned r w : let (x, w1) := protect r w in w_plan w1 = w_plan w /\ w_out w1 = w_out w /\ w_enc w1 = w_enc w /\ w_iv w1 = w_iv w /\ w_count w1 = w_count w /\
  forall p o, protect r (planned w p o) = (x, planned w1 p o).
Proof.
  unfold protect. destruct w as [o0 p0 e k v lg]. cbn [w_enc]. destruct e as [e|]; [|repeat split].
  cbn [w_count w_iv w_out w_plan w_log]. destruct (e (seq_nonce k v) (rc_fragment r) (seq_ad k (rc_type r) (rc_major r) (rc_minor r) (zlen (rc_fragment r)))) eqn:E; repeat split; intros p o; unfold planned; cbn [w_enc w_count w_iv w_log]; rewrite E; reflexivity.
Qed.
Lemma bump_planned m w : let (x, w1) := w_bump m w in w_plan w1 = w_plan w /\ w_out w1 = w_out w /\ forall p o, w_bump m (planned w p o) = (x, planned w1 p o).
Proof. unfold w_bump. destruct w as [o0 p0 e k v lg]. cbn [w_count w_out w_plan w_enc w_iv w_log planned]. destruct (ck m 64 (k + 1)); repeat split. Qed.
Lemma record_given m r w frag w1 : protect r w = (Ok frag, w1) -> zlen frag <= 18432 ->
  write_record m r w = let '(ok, out, p') := given_out (w_plan w) (header_parts r frag) in
    if ok then w_bump m (planned w1 p' (w_out w ++ out)) else (Err IoFailure, planned w1 p' (w_out w ++ out)).
Proof.
  intros E L. rewrite write_record_emit. unfold mbind at 1. rewrite E. change ENC_RECORD_MAX_LEN with 18432. replace (18432 <? zlen frag) with false by lia.
  unfold mbind. rewrite emit_given. pose proof (protect_planned r w) as P. rewrite E in P. destruct P as (-> & -> & _).
  destruct (given_out (w_plan w) (header_parts r frag)) as [[ok out] p']. destruct ok; reflexivity.
Qed.
Lemma parts_sliced r frag : zlen frag <= 18432 -> sliced (wire (rc_type r) (rc_major r) (rc_minor r) frag) (header_parts r frag).
Proof. intros L. rewrite <- (app_nil_r (wire _ _ _ _)). unfold header_parts. rewrite ct_code. constructor; [exact L|constructor]. Qed.

(** what an action sends on a transport that works determines what it does on every other one *)
Definition wsim {A} (a : M writer A) : Prop := forall w x w0, w_plan w = [] -> a w = (x, w0) -> w_plan w0 = [] /\
  exists l more, sliced more l /\ w_out w0 = w_out w ++ more /\ forall p o, let '(ok, out, p') := given_out p l in
    if ok then a (planned w p o) = (x, planned w0 p' (o ++ out)) else exists w', a (planned w p o) = (Err IoFailure, w') /\ w_out w' = o ++ out.
Definition cplan (c : client) (p : list wevent) (o : bytes) : client := Client (c_reader c) (planned (c_writer c) p o) (c_rng c) (c_buf c).
Definition csim {A} (a : M client A) : Prop := forall c x c0, w_plan (c_writer c) = [] -> a c = (x, c0) -> w_plan (c_writer c0) = [] /\
  exists l more, sliced more l /\ w_out (c_writer c0) = w_out (c_writer c) ++ more /\ forall p o, let '(ok, out, p') := given_out p l in
    if ok then a (cplan c p o) = (x, cplan c0 p' (o ++ out)) else exists c', a (cplan c p o) = (Err IoFailure, c') /\ w_out (c_writer c') = o ++ out.
Lemma wsim_quiet {A} (a : M writer A) : (forall w, let (x, w1) := a w in w_plan w1 = w_plan w /\ w_out w1 = w_out w /\ forall p o, a (planned w p o) = (x, planned w1 p o)) -> wsim a.
Proof.
  intros H w x w0 P E. specialize (H w). rewrite E in H. destruct H as (P1 & O1 & H). split; [congruence|]. exists [], []. split; [constructor|]. rewrite app_nil_r. split; [exact O1|].
  intros p o. cbn [given_out]. rewrite app_nil_r. apply H.
Qed.
Lemma wsim_bind {A B} (a : M writer A) (f : A -> M writer B) : wsim a -> (forall y, wsim (f y)) -> wsim (mbind a f).
Proof.
  intros Ha Hf w x w0 P E. unfold mbind in E. destruct (a w) as [y w1] eqn:Ea. destruct (Ha w y w1 P Ea) as (P1 & l1 & m1 & S1 & O1 & R1). destruct y as [y|e| |].
  1: { destruct (Hf y w1 x w0 P1 E) as (P2 & l2 & m2 & S2 & O2 & R2). split; [exact P2|]. exists (l1 ++ l2), (m1 ++ m2). split; [apply sliced_app; assumption|]. split; [rewrite O2, O1, app_assoc; reflexivity|].
       intros p o. rewrite given_app. specialize (R1 p o). destruct (given_out p l1) as [[ok1 out1] p1]. unfold mbind. destruct ok1.
       - rewrite R1. specialize (R2 p1 (o ++ out1)). destruct (given_out p1 l2) as [[ok2 out2] p2]. rewrite app_assoc. exact R2.
       - destruct R1 as (w' & -> & O'). exists w'. auto. }
  all: apply pair_equal_spec in E as [<- <-]; split; [exact P1|]; exists l1, m1; split; [exact S1|]; split; [exact O1|]; intros p o; specialize (R1 p o);
    destruct (given_out p l1) as [[ok1 out1] p1]; unfold mbind; destruct ok1; [rewrite R1; reflexivity|destruct R1 as (w' & -> & O'); exists w'; auto].
Qed.
Lemma wsim_lift {A} (x : res A) : wsim (mlift x).
Proof. apply wsim_quiet. intros w. unfold mlift. repeat split. Qed.
Lemma wsim_record m r : wsim (write_record m r).
Proof.
  intros w x w0 P E. pose proof (protect_planned r w) as Q. destruct (protect r w) as [y w1] eqn:Ep. destruct Q as (P1 & O1 & _ & _ & _ & Q).
  destruct y as [frag|e| |].
  - destruct (Z_le_gt_dec (zlen frag) 18432) as [L|L].
    + rewrite (record_given _ _ _ _ _ Ep L), P in E.
      assert (G : forall l, given_out [] l = (true, concat l, [])) by (clear; induction l as [|[|s0 s] l IH]; [reflexivity|exact IH|]; cbn [given_out]; rewrite IH; reflexivity).
      rewrite G in E. pose proof (bump_planned m (planned w1 [] (w_out w ++ concat (header_parts r frag)))) as B. rewrite E in B. destruct B as (B1 & B2 & B).
      split; [rewrite B1; reflexivity|]. exists (header_parts r frag), (concat (header_parts r frag)). pose proof (parts_sliced r frag L) as Sl. rewrite (sliced_concat _ _ Sl) in *. split; [exact Sl|]. split; [rewrite B2; reflexivity|].
      intros p o. rewrite (record_given m r (planned w p o) frag (planned w1 p o) (Q p o) L). cbn [planned w_plan w_out].
      destruct (given_out p (header_parts r frag)) as [[ok out] p']. destruct ok; [exact (B p' (o ++ out))|]. eexists. split; reflexivity.
    + rewrite write_record_emit in E. unfold mbind at 1 in E. rewrite Ep in E. change ENC_RECORD_MAX_LEN with 18432 in E. replace (18432 <? zlen frag) with true in E by lia. apply pair_equal_spec in E as [<- <-].
      split; [congruence|]. exists [], []. split; [constructor|]. split; [rewrite app_nil_r; exact O1|]. intros p o. cbn [given_out]. rewrite app_nil_r, write_record_emit. unfold mbind at 1. rewrite Q.
      change ENC_RECORD_MAX_LEN with 18432. replace (18432 <? zlen frag) with true by lia. reflexivity.
  - unfold write_record, mbind at 1 in E. rewrite Ep in E. apply pair_equal_spec in E as [<- <-].
    split; [congruence|]. exists [], []. split; [constructor|]. split; [rewrite app_nil_r; exact O1|]. intros p o. cbn [given_out]. rewrite app_nil_r. unfold write_record, mbind at 1. rewrite Q. reflexivity.
  - unfold write_record, mbind at 1 in E. rewrite Ep in E. apply pair_equal_spec in E as [<- <-].
    split; [congruence|]. exists [], []. split; [constructor|]. split; [rewrite app_nil_r; exact O1|]. intros p o. cbn [given_out]. rewrite app_nil_r. unfold write_record, mbind at 1. rewrite Q. reflexivity.
  - unfold write_record, mbind at 1 in E. rewrite Ep in E. apply pair_equal_spec in E as [<- <-].
    split; [congruence|]. exists [], []. split; [constructor|]. split; [rewrite app_nil_r; exact O1|]. intros p o. cbn [given_out]. rewrite app_nil_r. unfold write_record, mbind at 1. rewrite Q. reflexivity.
Qed.
Lemma wsim_fragments m t fs : wsim (write_fragments m t fs).
Proof.
  induction fs as [|f fs IH]; [apply (wsim_lift (Ok tt))|]. cbn [write_fragments]. apply wsim_bind; [apply wsim_lift|]. intros r. apply wsim_bind; [apply wsim_record|]. intros _. exact IH.
Qed.
Lemma wsim_handshake m h : wsim (write_handshake m h).
Proof. unfold write_handshake. apply wsim_bind; [apply wsim_lift|]. intros d. apply wsim_fragments. Qed.
Lemma wsim_alert m a : wsim (write_alert m a).
Proof. unfold write_alert. apply wsim_bind; [apply wsim_lift|]. intros d. apply wsim_fragments. Qed.
Lemma wsim_enc e : wsim (w_set_encryptor e).
Proof. apply wsim_quiet. intros [o p x k v lg]. unfold w_set_encryptor. cbn [w_enc]. destruct x; repeat split. Qed.
Lemma wsim_iv v : wsim (w_set_iv v).
Proof. apply wsim_quiet. intros [o p x k [i|] lg]; repeat split. Qed.

Lemma csim_bind {A B} (a : M client A) (f : A -> M client B) : csim a -> (forall y, csim (f y)) -> csim (mbind a f).
Proof.
  intros Ha Hf c x c0 P E. unfold mbind in E. destruct (a c) as [y c1] eqn:Ea. destruct (Ha c y c1 P Ea) as (P1 & l1 & m1 & S1 & O1 & R1). destruct y as [y|e| |].
  1: { destruct (Hf y c1 x c0 P1 E) as (P2 & l2 & m2 & S2 & O2 & R2). split; [exact P2|]. exists (l1 ++ l2), (m1 ++ m2). split; [apply sliced_app; assumption|]. split; [rewrite O2, O1, app_assoc; reflexivity|].
       intros p o. rewrite given_app. specialize (R1 p o). destruct (given_out p l1) as [[ok1 out1] p1]. unfold mbind. destruct ok1.
       - rewrite R1. specialize (R2 p1 (o ++ out1)). destruct (given_out p1 l2) as [[ok2 out2] p2]. rewrite app_assoc. exact R2.
       - destruct R1 as (w' & -> & O'). exists w'. auto. }
  all: apply pair_equal_spec in E as [<- <-]; split; [exact P1|]; exists l1, m1; split; [exact S1|]; split; [exact O1|]; intros p o; specialize (R1 p o);
    destruct (given_out p l1) as [[ok1 out1] p1]; unfold mbind; destruct ok1; [rewrite R1; reflexivity|destruct R1 as (w' & -> & O'); exists w'; auto].
Qed.
Lemma csim_writer {A} (a : M writer A) : wsim a -> csim (on_writer a).
Proof.
  intros H c x c0 P E. unfold on_writer in E. destruct (a (c_writer c)) as [y w1] eqn:Ea. apply pair_equal_spec in E as [<- <-]. destruct (H _ _ _ P Ea) as (P1 & l & mo & S & O & R).
  split; [exact P1|]. exists l, mo. split; [exact S|]. split; [exact O|]. intros p o. specialize (R p o). destruct (given_out p l) as [[ok out] p']. unfold on_writer, cplan. cbn [c_writer c_reader c_rng c_buf].
  destruct ok; [rewrite R; reflexivity|]. destruct R as (w' & -> & O'). eexists. split; [reflexivity|exact O'].
Qed.
Lemma csim_reader {A} (a : M reader A) : csim (on_reader a).
Proof.
  intros c x c0 P E. unfold on_reader in E. destruct (a (c_reader c)) as [y r1] eqn:Ea. apply pair_equal_spec in E as [<- <-]. split; [exact P|]. exists [], []. split; [constructor|]. split; [rewrite app_nil_r; reflexivity|].
  intros p o. cbn [given_out]. rewrite app_nil_r. unfold on_reader, cplan. cbn [c_reader]. rewrite Ea. reflexivity.
Qed.
Lemma csim_rng {A} (a : M rng A) : csim (on_rng a).
Proof.
  intros c x c0 P E. unfold on_rng in E. destruct (a (c_rng c)) as [y r1] eqn:Ea. apply pair_equal_spec in E as [<- <-]. split; [exact P|]. exists [], []. split; [constructor|]. split; [rewrite app_nil_r; reflexivity|].
  intros p o. cbn [given_out]. rewrite app_nil_r. unfold on_rng, cplan. cbn [c_rng]. rewrite Ea. reflexivity.
Qed.
Lemma csim_lift {A} (x : res A) : csim (mlift x).
Proof. intros c y c0 P E. apply pair_equal_spec in E as [<- <-]. split; [exact P|]. exists [], []. split; [constructor|]. split; [rewrite app_nil_r; reflexivity|]. intros p o. cbn [given_out]. rewrite app_nil_r. reflexivity. Qed.
Lemma csim_expect {A} m (pick : handshake -> option A) : csim (expect m pick).
Proof. apply csim_bind; [apply csim_reader|]. intros h. destruct (pick h) as [a|]; [exact (csim_lift (Ok a))|exact (csim_lift (Err UnexpectedMessage))]. Qed.
Lemma csim_handshake m : csim (client_handshake m).
Proof.
  unfold client_handshake.
  repeat (apply csim_bind; [first [apply csim_lift|apply csim_reader|apply csim_rng|apply csim_expect|apply csim_writer; first [apply wsim_handshake|apply wsim_fragments|apply wsim_enc|apply wsim_iv]]|intros; repeat match goal with y : (_ * _)%type |- _ => destruct y end]).
  match goal with |- csim (if ?b then _ else _) => destruct b end; [exact (csim_lift (Ok tt))|exact (csim_lift (Err DecryptError))].
Qed.

(** ** Construction *)
Lemma building_runs m s p g x st : healthy (writer_new p) -> clean s -> zlen (stream s) < 2 ^ 64 -> building m g (stream s) x st ->
  exists c, ready m st p (c_writer c) /\ client_handshake m (client_init s p g) = (x, c).
Proof.
  intros H C Rm B. apply building_parts in B as [(L & -> & ->)|[(L & F & ->)|(ss & pend & rest & P & A & ->)]].
  - rewrite phases. unfold client_init, mbind at 1.
    destruct (hello_run m (reader_new s) (writer_new p) g [] eq_refl eq_refl) as [[_ X]|(L' & _)]; [rewrite X; eexists; split; [|reflexivity]|lia].
    split; [reflexivity|]. split; [auto|]. repeat split.
  - assert (Fs : forall w b, exists y r' g', ph_server m (Client (reader_new s) w (skipn 32 g) b) = (y, Client r' w g' b) /\ failed y /\ as_fail y = x) by (intros; apply flight_sound; assumption).
    destruct (handshake_run m s p g H L) as [(w1 & R & y & r' & g' & Fy & E & Eq)|(ss & r & w3 & g' & RC & Fl & R & Eq)].
    + destruct (Fs w1 []) as (y2 & r2 & g2 & E2 & _ & <-). rewrite E in E2. apply pair_equal_spec in E2 as [-> _]. exists (Client r' w1 g' []). auto.
    + exfalso. destruct (Fs (writer_new p) []) as (y & r' & g2 & E & Fy & _). destruct RC as (_ & _ & _ & V & Su & Co & (g3 & K)).
      pose proof (server_ok m _ (writer_new p) _ [] _ _ _ _ _ _ _ Fl (proj2 (check_inv _) (conj V (conj Su Co))) K) as Y. rewrite E in Y. apply pair_equal_spec in Y as [-> _]. exact Fy.
  - pose proof P as (L & _). destruct (passes_sound m s C Rm g ss pend rest P) as (RC & r & Fl & G & R).
    destruct (handshake_run m s p g H L) as [(w1 & Rd & y & r' & g' & Fy & E & Eq)|(ss2 & r2 & w3 & g' & RC2 & Fl2 & Rd & Eq)].
    + exfalso. destruct RC as (_ & _ & _ & V & Su & Co & (g3 & K)).
      pose proof (server_ok m _ w1 _ [] _ _ _ _ _ _ _ Fl (proj2 (check_inv _) (conj V (conj Su Co))) K) as Y. rewrite E in Y. apply pair_equal_spec in Y as [-> _]. exact Fy.
    + pose proof (reached_det _ _ _ _ _ RC RC2) as <-. assert (r2 = r) as ->.
      { destruct Fl as (q1 & q2 & q3 & Q1 & Q2 & Q3 & Q4), Fl2 as (t1 & t2 & t3 & T1 & T2 & T3 & T4). congruence. }
      destruct (answers_sound m (ived_reader r (s_keys ss)) w3 g' [] ss pend rest x (session_good _ _ _ _ RC)) as (r' & Ea); [exact G|reflexivity|exact R|exact A|].
      rewrite Ea in Eq. exists (Client r' w3 g' []). auto.
Qed.
Lemma alert_sim m e : e <> IoFailure -> forall c c0, w_plan (c_writer c) = [] -> on_writer (write_alert m (Alert AL_fatal (alert_from_err e))) c = (Ok tt, c0) ->
  exists more, w_out (c_writer c0) = w_out (c_writer c) ++ more /\ forall p o, exists ok out p' c', delivery p more ok out p' /\
    send_tls_alert m e (cplan c p o) = (Ok (if ok then e else IoFailure), c') /\ w_out (c_writer c') = o ++ out.
Proof.
  intros N c c0 P E. destruct (csim_writer _ (wsim_alert m (Alert AL_fatal (alert_from_err e))) c _ _ P E) as (_ & l & more & S & O & R). exists more. split; [exact O|].
  intros p o. specialize (R p o). destruct (given_out p l) as [[ok out] p'] eqn:G. exists ok, out, p'.
  replace (send_tls_alert m e (cplan c p o)) with
    (match on_writer (write_alert m (Alert AL_fatal (alert_from_err e))) (cplan c p o) with
     | (Ok _, c') => (Ok e, c') | (Err k', c') => (Ok k', c') | (Panic, c') => (Panic, c') | (Diverge, c') => (Diverge, c') end) by (destruct e; try reflexivity; congruence).
  destruct ok; [rewrite R; eexists; split; [exists l; auto|]; split; reflexivity|]. destruct R as (c' & -> & O'). exists c'. split; [exists l; auto|]. auto.
Qed.
Lemma venture_run m s p g : clean s -> zlen (stream s) < 2 ^ 64 -> exists x c, client_new m s p g = (x, c) /\ venture m g (stream s) p x (w_out (c_writer c)).
Proof.
  intros C Rm. destruct (building_total m g (stream s) Rm) as (x & st & B). destruct (building_runs m s [] g x st (Forall_nil _) C Rm B) as (c0 & Rd & E0).
  destruct (csim_handshake m (client_init s [] g) x c0 eq_refl E0) as (P0 & l & more & S & O & R). specialize (R p []). change (cplan (client_init s [] g) p []) with (client_init s p g) in R.
  cbn [client_init c_writer writer_new w_out app] in O. assert (more = stage_out st) as -> by (destruct Rd as [Rd _]; congruence).
  destruct (given_out p l) as [[ok out] p'] eqn:G. cbn [app] in R. assert (D : delivery p (stage_out st) ok out p') by (exists l; auto). unfold client_new, or_alert. destruct ok.
  2:{ destruct R as (c' & -> & O'). cbn [send_tls_alert mret]. exists (Err IoFailure), c'. split; [reflexivity|]. rewrite O'. eapply V_cut; eassumption. }
  rewrite R. destruct x as [u|e| |].
  - eexists _, _. split; [reflexivity|]. eapply V_quiet; [exact B|discriminate|exact D].
  - assert (De : e = IoFailure \/ e <> IoFailure) by (destruct e; auto; right; discriminate). destruct De as [-> |De].
    + cbn [send_tls_alert mret]. eexists _, _. split; [reflexivity|]. eapply V_quiet; [exact B|congruence|exact D].
    + destruct (alert_run m st [] (c_writer c0) e Rd) as (y & w' & Ew & (S1 & _)).
      destruct S1 as [[-> O1]|(_ & Hn & _)]; [|exfalso; apply Hn; destruct Rd as (_ & Rd & _); apply Rd; constructor].
      destruct (alert_sim m e De c0 (Client (c_reader c0) w' (c_rng c0) (c_buf c0)) P0) as (more & O2 & R2); [unfold on_writer; rewrite Ew; reflexivity|].
      cbn [c_writer] in O2. rewrite O1 in O2. apply app_inv_head in O2 as <-. destruct (R2 p' out) as (ok & out2 & p2 & c' & D2 & -> & O'). exists (provided ok (Err e)), c'. split; [destruct ok; reflexivity|]. rewrite O'.
      eapply V_alert; [exact B|exact De|exact D|]. replace (signal st e) with (alert_out st e) by (destruct e; try reflexivity; congruence). exact D2.
  - eexists _, _. split; [reflexivity|]. eapply V_quiet; [exact B|discriminate|exact D].
  - eexists _, _. split; [reflexivity|]. eapply V_quiet; [exact B|discriminate|exact D].
Qed.
Theorem venture_one m g b p x out x2 out2 : zlen b < 2 ^ 64 -> venture m g b p x out -> venture m g b p x2 out2 -> x2 = x /\ out2 = out.
Proof.
  intros R A B.
  destruct A as [x st out p' Bu D|x st out p' Bu N D|e st out p1 ok o2 p2 Bu N D1 D2], B as [x' st' out' p'' Bu' D'|x' st' out' p'' Bu' N' D'|e' st' out' p1' ok' o2' p2' Bu' N' D1' D2'].
  all: destruct (building_once _ _ _ _ _ _ _ R Bu Bu') as [X X2]; subst x' st' || (try subst x); try subst st'; try subst x'.
  all: try (destruct (delivery_one _ _ _ _ _ _ _ _ D D') as (Y & -> & ->); first [discriminate Y|auto]).
  all: try (destruct (delivery_one _ _ _ _ _ _ _ _ D D1') as (Y & -> & ->); first [discriminate Y|exfalso; apply N'; apply N; congruence]).
  all: try (destruct (delivery_one _ _ _ _ _ _ _ _ D1 D') as (Y & -> & ->); first [discriminate Y|exfalso; apply N; apply N'; congruence]).
  injection X as <-. destruct (delivery_one _ _ _ _ _ _ _ _ D1 D1') as (_ & -> & ->). destruct (delivery_one _ _ _ _ _ _ _ _ D2 D2') as (-> & -> & _). auto.
Qed.
Lemma new_at m s p g : exists x c0 s', client_new m (source (stream s)) p g = (x, c0) /\ client_new m s p g = (x, csrc c0 s').
Proof. destruct (new_first m s p g) as (x & c0 & s' & A & B & _). eauto. Qed.
Theorem venture_iff m s p g x out : zlen (stream s) < 2 ^ 64 -> ((exists c, client_new m s p g = (x, c) /\ w_out (c_writer c) = out) <-> venture m g (stream s) p x out).
Proof.
  intros R. destruct (new_at m s p g) as (y & c0 & s' & E0 & E1). destruct (venture_run m (source (stream s)) p g (source_clean _)) as (x1 & c1 & E2 & V); [rewrite source_stream; exact R|].
  rewrite source_stream in V. rewrite E0 in E2. apply pair_equal_spec in E2 as [<- <-]. split.
  - intros (c & E & <-). rewrite E1 in E. apply pair_equal_spec in E as [<- <-]. exact V.
  - intros V2. destruct (venture_one _ _ _ _ _ _ _ _ R V V2) as [-> ->]. exists (csrc c0 s'). auto.
Qed.

(** ** Records under the keys *)
Lemma record_dispatch m t key iv f w k : legal_fragment f -> keyed_w m w key iv k -> k + 1 < 2 ^ 64 -> exists ok out w',
  delivery (w_plan w) (sealed_record key iv k t f) ok out (w_plan w') /\ write_record m (Rec t x03 x03 f) w = (provided ok (Ok tt), w') /\ w_out w' = w_out w ++ out /\ keyed_w m w' key iv (if ok then k + 1 else k).
Proof.
  intros [L1 L2] (He & Hi & Hc & Lk & Li & K0) R. set (sd := aead_seal key (rfc_nonce iv k) (rfc_ad k t x03 x03 (zlen f)) f).
  set (w1 := Writer (w_out w) (w_plan w) (w_enc w) (w_count w) (w_iv w) (w_log w ++ [(rfc_nonce iv k, f, rfc_ad k t x03 x03 (zlen f), sd)])).
  assert (Ep : protect (Rec t x03 x03 f) w = (Ok sd, w1)).
  { unfold protect. rewrite He, Hi, Hc, seq_nonce_rfc, seq_ad_rfc by (assumption || lia). cbn [rc_fragment rc_type rc_major rc_minor]. unfold new_encryptor at 1.
    rewrite aead_encrypt_spec; [unfold w1; rewrite He, Hi, Hc; reflexivity|exact Lk|apply rfc_nonce_length; lia|apply fits_record; lia]. }
  assert (Ls : zlen sd = zlen f + 16) by (unfold sd, zlen; rewrite aead_seal_length; lia).
  rewrite (record_given m _ w sd w1 Ep) by lia. destruct (given_out (w_plan w) (header_parts (Rec t x03 x03 f) sd)) as [[ok out] p'] eqn:G.
  assert (D : delivery (w_plan w) (sealed_record key iv k t f) ok out p') by (eexists; split; [|exact G]; exact (parts_sliced (Rec t x03 x03 f) sd ltac:(lia))).
  destruct ok.
  - unfold w_bump. cbn [planned w_count w1]. unfold w1. cbn [planned w_count w_out w_plan w_enc w_iv w_log]. rewrite Hc, ck_ok by lia. eexists true, out, _. split; [|split; [reflexivity|]]; [exact D|]. split; [reflexivity|].
    repeat split; cbn; try assumption; lia.
  - eexists false, out, _. split; [|split; [reflexivity|]]; [exact D|]. split; [reflexivity|]. repeat split; cbn; try assumption; lia.
Qed.
Lemma dispatch_run m t key iv fs : Forall legal_fragment fs -> forall w k, keyed_w m w key iv k -> k + zlen fs < 2 ^ 64 -> exists ok out k' w',
  dispatch key iv t fs k (w_plan w) ok out k' (w_plan w') /\ write_fragments m t fs w = (provided ok (Ok tt), w') /\ w_out w' = w_out w ++ out /\ keyed_w m w' key iv k' /\ k <= k' <= k + zlen fs.
Proof.
  induction 1 as [|f fs Lf Lfs IH]; intros w k K R.
  - exists true, [], k, w. split; [constructor|]. split; [reflexivity|]. rewrite app_nil_r. split; [reflexivity|]. split; [exact K|]. change (zlen (@nil bytes)) with 0. lia.
  - rewrite zlen_cons in R |- *. pose proof (zlen_nonneg fs). destruct (record_dispatch m t key iv f w k Lf K ltac:(lia)) as (ok & out & w1 & D & E & O & K1).
    cbn [write_fragments]. unfold mbind, mlift, record_new. replace (RECORD_MAX_LEN <? zlen f) with false by (destruct Lf; change RECORD_MAX_LEN with 16384; lia). cbv iota beta. change (fst tls_version) with x03. change (snd tls_version) with x03. rewrite E. destruct ok; cbn [provided].
    + destruct (IH w1 (k + 1) K1 ltac:(lia)) as (ok2 & out2 & k2 & w2 & D2 & E2 & O2 & K2 & B2). exists ok2, (out ++ out2), k2, w2. split; [eapply Di_sent; eassumption|]. split; [exact E2|]. rewrite O2, O, app_assoc. split; [reflexivity|]. split; [exact K2|lia].
    + exists false, out, k, w1. split; [apply Di_cut; exact D|]. split; [reflexivity|]. split; [exact O|]. split; [exact K1|lia].
Qed.
Lemma dispatch_one key iv t fs j p ok out j' p' : dispatch key iv t fs j p ok out j' p' -> forall ok2 out2 j2 p2, dispatch key iv t fs j p ok2 out2 j2 p2 -> ok2 = ok /\ out2 = out /\ j2 = j' /\ p2 = p'.
Proof.
  induction 1 as [j p|f fs j p o1 p1 ok out j' p' D Di IH|f fs j p out p' D]; intros ok2 out2 j2 p2 X; inversion X as [|f0 fs0 ? ? o1' p1' ? o' ? ? D' Di'|f0 fs0 ? ? o' ? D']; subst.
  - auto.
  - destruct (delivery_one _ _ _ _ _ _ _ _ D D') as (_ & -> & ->). destruct (IH _ _ _ _ Di') as (-> & -> & -> & ->). auto.
  - destruct (delivery_one _ _ _ _ _ _ _ _ D D') as (Y & _). discriminate Y.
  - destruct (delivery_one _ _ _ _ _ _ _ _ D D') as (Y & _). discriminate Y.
  - destruct (delivery_one _ _ _ _ _ _ _ _ D D') as (_ & -> & ->). auto.
Qed.
Lemma write_dispatch m key iv k d c fs : parcels d fs -> keyed_w m (c_writer c) key iv k -> k + zlen d < 2 ^ 64 -> exists ok out k' c',
  dispatch key iv ApplicationDataTy fs k (w_plan (c_writer c)) ok out k' (w_plan (c_writer c')) /\ client_write m d c = (provided ok (Ok (zlen d)), c') /\ c_reader c' = c_reader c /\ c_buf c' = c_buf c /\
  w_out (c_writer c') = w_out (c_writer c) ++ out /\ keyed_w m (c_writer c') key iv k' /\ k <= k' <= k + zlen d.
Proof.
  intros P K R. apply parcels_iff in P. destruct (fragments_legal d) as (H1 & H2 & H3). cbv zeta in H1, H2, H3. rewrite <- P in H1, H2, H3.
  destruct (dispatch_run m ApplicationDataTy key iv fs H2 (c_writer c) k K ltac:(lia)) as (ok & out & k' & w' & D & E & O & K' & B).
  exists ok, out, k', (Client (c_reader c) w' (c_rng c) (c_buf c)). split; [exact D|]. split.
  - unfold client_write, client_write_all, mbind, or_alert, on_writer, write_application_data. destruct K as (He & _). rewrite He. unfold write_data. rewrite <- P, E. destruct ok; reflexivity.
  - cbn [c_reader c_buf c_writer]. repeat (split; [first [reflexivity|assumption]|]). lia.
Qed.
Lemma close_dispatch m key iv k c : keyed_w m (c_writer c) key iv k -> k + 1 < 2 ^ 64 -> exists ok out k' c',
  dispatch key iv AlertTy [[x02; x00]] k (w_plan (c_writer c)) ok out k' (w_plan (c_writer c')) /\ client_close m c = (provided ok (Ok tt), c') /\ c_reader c' = c_reader c /\ c_buf c' = c_buf c /\
  w_out (c_writer c') = w_out (c_writer c) ++ out /\ keyed_w m (c_writer c') key iv k' /\ k <= k' <= k + 1.
Proof.
  intros K R. destruct (dispatch_run m AlertTy key iv [[x02; x00]]) with (w := c_writer c) (k := k) as (ok & out & k' & w' & D & E & O & K' & B); [constructor; [split; cbv; discriminate|constructor]|exact K|change (zlen [[x02; x00]]) with 1; lia|].
  exists ok, out, k', (Client (c_reader c) w' (c_rng c) (c_buf c)). split; [exact D|]. split.
  - unfold client_close, on_writer, write_alert, mbind, mlift. change (tls_write i_alert (Alert AL_fatal AD_close_notify)) with (@Ok bytes [x02; x00]). cbv iota beta.
    unfold write_data. change (chunks (Z.to_nat RECORD_MAX_LEN) [x02; x00]) with [[x02; x00]]. rewrite E. reflexivity.
  - cbn [c_reader c_buf c_writer]. repeat (split; [first [reflexivity|assumption]|]). change (zlen [[x02; x00]]) with 1 in B. lia.
Qed.

(** ** An application at work *)
Definition faces (m : mode) (c : client) (ks ivs kc ivc buf : bytes) (k : Z) (pend : bytes) (bs : list bytes) (j : Z) (p : list wevent) : Prop :=
  standing m c ks ivs buf k pend bs /\ k + zlen (concat bs) < 2 ^ 64 /\ keyed_w m (c_writer c) kc ivc j /\ w_plan (c_writer c) = p.
Lemma parcels_any d : exists fs, parcels d fs. Proof. eapply parcels_some. reflexivity. Qed.
Lemma fortune_iff m ks ivs kc ivc q : forall c buf k pend bs j p l out, faces m c ks ivs kc ivc buf k pend bs j p -> j + spent q l < 2 ^ 64 ->
  ((exists c', use m q c = (l, c') /\ w_out (c_writer c') = w_out (c_writer c) ++ out) <-> fortune ks ivs kc ivc q buf k pend bs j p l out).
Proof.
  induction q as [|o next IH]; intros c buf k pend bs j p l out T Sp.
  - cbn [use]. split.
    + intros (c' & E & O). apply pair_equal_spec in E as [<- <-]. rewrite <- (app_nil_r (w_out (c_writer c))) in O at 1. apply app_inv_head in O as <-. constructor.
    + intros L. inversion L; subst. exists c. rewrite app_nil_r. auto.
  - pose proof T as (Ha & Rm & Kw & Pl). destruct o as [n|d|].
    + pose proof Ha as (((_ & _ & _ & Lk & Li & K0) & _ & St) & _). assert (Nb : bs <> []) by (rewrite <- St; apply stretches_ne).
      destruct (hauls_one ks ivs n buf k pend bs Lk Li Nb K0 Rm) as (x & buf' & k' & pend' & bs' & F & U).
      destruct (hauls_sound m _ _ _ _ _ _ _ _ _ _ _ _ F c Ha Rm) as (c1 & E1 & H1 & W1 & G1). destruct (hauls_room _ _ _ _ _ _ _ _ _ _ _ _ F) as (R1 & _).
      cbn [use do_call]. rewrite E1. assert (Cx : (exists e, x = Ok e) \/ x = Panic) by (destruct F; eauto). destruct Cx as [(e & ->)| -> ]; cbn [crashed].
      * assert (T1 : faces m c1 ks ivs kc ivc buf' k' pend' bs' j p) by (split; [exact H1|]; split; [lia|]; rewrite W1; auto).
        split.
        -- intros (c' & E & O). destruct (use m (next (Got (Ok e))) c1) as [l1 c2] eqn:E2. apply pair_equal_spec in E as [<- <-]. eapply F_read; [exact F|].
           cbn [spent call_cost] in Sp. apply (IH (Got (Ok e)) c1 _ _ _ _ _ _ _ _ T1); [lia|]. exists c2. rewrite W1. auto.
        -- intros L. inversion L as [|n0 next0 ? ? ? ? ? ? d0 b2 k2 p2 s2 l0 ? F2 L2|n0 next0 ? ? ? ? ? ? b2 k2 p2 s2 F2| |]; subst; destruct (U _ _ _ _ _ F2) as (X & -> & -> & -> & ->); [|discriminate X].
           apply Ok_inj in X as ->. cbn [spent call_cost] in Sp. destruct (proj2 (IH (Got (Ok e)) c1 _ _ _ _ j _ l0 out T1 ltac:(lia)) L2) as (c2 & E2 & O2). rewrite E2. exists c2. rewrite <- W1. auto.
      * split.
        -- intros (c' & E & O). apply pair_equal_spec in E as [<- <-]. rewrite W1, <- (app_nil_r (w_out (c_writer c))) in O at 1. apply app_inv_head in O as <-. eapply F_panic, F.
        -- intros L. inversion L as [|n0 next0 ? ? ? ? ? ? d0 b2 k2 p2 s2 l0 ? F2 L2|n0 next0 ? ? ? ? ? ? b2 k2 p2 s2 F2| |]; subst; destruct (U _ _ _ _ _ F2) as (X & _); [discriminate X|].
           exists c1. rewrite W1, app_nil_r. auto.
    + destruct (parcels_any d) as (fs & Pa). assert (B : forall a l0, l = a :: l0 -> j + zlen d + spent (next a) l0 < 2 ^ 64) by (intros a l0 ->; cbn [spent call_cost] in Sp; lia).
      cbn [use do_call]. split.
      * intros (c' & E & O). destruct (client_write m d c) as [y c0] eqn:Ew.
        assert (Z : j + zlen d < 2 ^ 64) by (destruct (crashed (Wrote y)); [|destruct (use m (next (Wrote y)) c0)]; apply pair_equal_spec in E as [<- _]; specialize (B _ _ eq_refl);
          match type of B with context [spent ?a ?b] => pose proof (spent_nonneg a b) end; lia).
        destruct (write_dispatch m kc ivc j d c fs Pa Kw Z) as (ok & out1 & j1 & c1 & D & E1 & Rr & Rb & O1 & K1 & Bj). rewrite Ew in E1. apply pair_equal_spec in E1 as [-> ->].
        replace (crashed (Wrote (provided ok (Ok (zlen d))))) with false in E by (destruct ok; reflexivity).
        destruct (use m (next (Wrote (provided ok (Ok (zlen d))))) c1) as [l1 c2] eqn:E2. apply pair_equal_spec in E as [<- <-]. specialize (B _ _ eq_refl).
        destruct (use_out m (next (Wrote (provided ok (Ok (zlen d))))) c1) as (more & Om). rewrite E2 in Om. cbn [snd] in Om.
        rewrite Om, O1, <- app_assoc in O. apply app_inv_head in O as <-. rewrite Pl in D. eapply F_write; [exact Pa|exact D|].
        apply (IH _ c1); [|lia|exists c2; split; [exact E2|exact Om]]. split; [eapply standing_same; eassumption|]. auto.
      * intros L. inversion L as [| | |d0 next0 ? ? ? ? ? ? fs0 ok out1 j1 p1 l0 out0 P0 D0 L2|]; subst. apply parcels_iff in P0. pose proof (proj1 (parcels_iff _ _) Pa) as Pb. rewrite <- Pb in P0. subst fs0. specialize (B _ _ eq_refl).
        assert (Z : j + zlen d < 2 ^ 64) by (match type of B with context [spent ?a ?b] => pose proof (spent_nonneg a b) end; lia).
        destruct (write_dispatch m kc ivc j d c fs Pa Kw Z) as (ok' & out1' & j1' & c1 & D & E1 & Rr & Rb & O1 & K1 & Bj). destruct (dispatch_one _ _ _ _ _ _ _ _ _ _ D0 _ _ _ _ D) as (-> & -> & -> & Ep).
        rewrite E1. replace (crashed (Wrote (provided ok (Ok (zlen d))))) with false by (destruct ok; reflexivity).
        destruct (proj2 (IH (Wrote (provided ok (Ok (zlen d)))) c1 buf k pend bs j1 p1 l0 out0 ltac:(split; [eapply standing_same; eassumption|auto]) ltac:(lia)) L2) as (c2 & E2 & O2).
        rewrite E2. exists c2. split; [reflexivity|]. rewrite O2, O1, <- app_assoc. reflexivity.
    + assert (B : forall a l0, l = a :: l0 -> j + 1 + spent (next a) l0 < 2 ^ 64) by (intros a l0 ->; cbn [spent call_cost] in Sp; lia).
      cbn [use do_call]. split.
      * intros (c' & E & O). destruct (client_close m c) as [y c0] eqn:Ew.
        assert (Z : j + 1 < 2 ^ 64) by (destruct (crashed (Closed y)); [|destruct (use m (next (Closed y)) c0)]; apply pair_equal_spec in E as [<- _]; specialize (B _ _ eq_refl);
          match type of B with context [spent ?a ?b] => pose proof (spent_nonneg a b) end; lia).
        destruct (close_dispatch m kc ivc j c Kw Z) as (ok & out1 & j1 & c1 & D & E1 & Rr & Rb & O1 & K1 & Bj). rewrite Ew in E1. apply pair_equal_spec in E1 as [-> ->].
        replace (crashed (Closed (provided ok (Ok tt)))) with false in E by (destruct ok; reflexivity).
        destruct (use m (next (Closed (provided ok (Ok tt)))) c1) as [l1 c2] eqn:E2. apply pair_equal_spec in E as [<- <-]. specialize (B _ _ eq_refl).
        destruct (use_out m (next (Closed (provided ok (Ok tt)))) c1) as (more & Om). rewrite E2 in Om. cbn [snd] in Om.
        rewrite Om, O1, <- app_assoc in O. apply app_inv_head in O as <-. rewrite Pl in D. eapply F_close; [exact D|].
        apply (IH _ c1); [|lia|exists c2; split; [exact E2|exact Om]]. split; [eapply standing_same; eassumption|]. auto.
      * intros L. inversion L as [| | | |next0 ? ? ? ? ? ? ok out1 j1 p1 l0 out0 D0 L2]; subst. specialize (B _ _ eq_refl).
        assert (Z : j + 1 < 2 ^ 64) by (match type of B with context [spent ?a ?b] => pose proof (spent_nonneg a b) end; lia).
        destruct (close_dispatch m kc ivc j c Kw Z) as (ok' & out1' & j1' & c1 & D & E1 & Rr & Rb & O1 & K1 & Bj). destruct (dispatch_one _ _ _ _ _ _ _ _ _ _ D0 _ _ _ _ D) as (-> & -> & -> & Ep).
        rewrite E1. replace (crashed (Closed (provided ok (Ok tt)))) with false by (destruct ok; reflexivity).
        destruct (proj2 (IH (Closed (provided ok (Ok tt))) c1 buf k pend bs j1 p1 l0 out0 ltac:(split; [eapply standing_same; eassumption|auto]) ltac:(lia)) L2) as (c2 & E2 & O2).
        rewrite E2. exists c2. split; [reflexivity|]. rewrite O2, O1, <- app_assoc. reflexivity.
Qed.

(** ** The whole session *)
Lemma new_planned m s g c0 p : client_new m s [] g = (Ok tt, c0) -> exists ok out p', delivery p (w_out (c_writer c0)) ok out p' /\
  if ok then client_new m s p g = (Ok tt, cplan c0 p' out) else exists c', client_new m s p g = (Err IoFailure, c') /\ w_out (c_writer c') = out.
Proof.
  unfold client_new, or_alert. intros E. destruct (client_handshake m (client_init s [] g)) as [x c1] eqn:E1.
  assert (x = Ok tt /\ c1 = c0) as [-> ->].
  { destruct x as [[]|e| |]; [apply pair_equal_spec in E as [_ <-]; auto| |discriminate E..]. destruct (send_tls_alert m e c1) as [[?| ? | |] ?]; discriminate E. }
  destruct (csim_handshake m (client_init s [] g) _ c0 eq_refl E1) as (P0 & l & more & S & O & R). cbn [client_init c_writer writer_new w_out app] in O. subst more. specialize (R p []). change (cplan (client_init s [] g) p []) with (client_init s p g) in R.
  destruct (given_out p l) as [[ok out] p'] eqn:G. cbn [app] in R. exists ok, out, p'. split; [exists l; auto|]. destruct ok; [rewrite R; reflexivity|]. destruct R as (c' & -> & O'). exists c'. auto.
Qed.
Theorem fate_iff m q s p g x l out : zlen (concat (stretches s)) + 1 < 2 ^ 64 -> 1 + spent q l < 2 ^ 64 ->
  ((exists c, sitting m q s p g = (x, l, c) /\ w_out (c_writer c) = out) <-> fate m g q (stretches s) p x l out).
Proof.
  intros R Sp. destruct (stretches_cons s) as (more & Es). rewrite Es in R |- *. cbn [concat] in R. rewrite zlen_app in R. pose proof (zlen_nonneg (concat more)).
  set (b := stream s) in *. pose proof (source_clean b) as C. pose proof (source_stream b) as Sb. assert (Rc : zlen (stream (source b)) < 2 ^ 64) by (rewrite Sb; lia). assert (Rs : zlen b < 2 ^ 64) by lia.
  destruct (new_first m s p g) as (y & c0 & s' & E0 & E1 & St). fold b in E0. rewrite Es in St. cbn [tl] in St.
  assert (T : forall ss n extra rest, connecting m g ss b n extra rest -> exists ok out p', delivery p (stage_out (Complete ss)) ok out p' /\
    if ok then y = Ok tt /\ w_out (c_writer c0) = out /\
      faces m (csrc c0 s') (k_server (s_keys ss)) (iv_server (s_keys ss)) (k_client (s_keys ss)) (iv_client (s_keys ss)) [] n extra (rest :: more) 1 p'
    else y = Err IoFailure).
  { intros ss n extra rest K. rewrite <- Sb in K. destruct (connected_talks m (source b) [] g ss n extra rest (Forall_nil _) C Rc K) as (c1 & E2 & O & T).
    destruct (new_planned m (source b) g c1 p E2) as (ok & o & p' & D & N). rewrite O in D. exists ok, o, p'. split; [exact D|]. destruct ok.
    2:{ destruct N as (c' & N & _). rewrite E0 in N. apply pair_equal_spec in N as [-> _]. reflexivity. }
    rewrite E0 in N. apply pair_equal_spec in N as [-> ->].
    split; [reflexivity|]. split; [reflexivity|]. destruct T as (((Kd & _ & B & Sr) & Bu) & Rm & Kw & He). pose proof (connecting_len _ _ _ _ _ _ _ K) as Lc. rewrite Sb in Lc.
    split; [split; [split; [exact Kd|]; split; [exact B|]; cbn [csrc c_reader set_src r_src]; rewrite (St eq_refl); cbn [cplan c_reader]; rewrite Sr; reflexivity|exact Bu]|].
    split; [cbn [concat]; rewrite zlen_app; lia|]. split; [exact Kw|reflexivity]. }
  unfold sitting. rewrite E1. pose proof (venture_iff m s p g) as VI. fold b in VI. split.
  - intros (c & E & <-). destruct y as [[]|e| |].
    1: { assert (V : venture m g b p (Ok tt) (w_out (c_writer (csrc c0 s')))) by (apply VI; [exact Rs|eauto]). assert (Bo : exists st, building m g b (Ok tt) st) by (remember (Ok tt) as x0 eqn:Ex; destruct V as [? ? ? ? ? ?|x1 st o p' Bd Nx D|e st o1 p1 ok o2 p2 Bd Nx D1 D2]; [discriminate Ex|subst; eauto|destruct ok; discriminate Ex]).
         apply building_connects in Bo as (ss & n & extra & rest & K); [|lia]. destruct (T _ _ _ _ K) as (ok & o & p' & D & X). destruct ok; [|discriminate X]. destruct X as (_ & O & Tk).
         destruct (use m q (csrc c0 s')) as [l1 c2] eqn:Eu. apply pair_equal_spec in E as [E <-]. apply pair_equal_spec in E as [<- <-].
         destruct (use_out m q (csrc c0 s')) as (o2 & Om). rewrite Eu in Om. cbn [snd] in Om. change (c_writer (csrc c0 s')) with (c_writer c0) in Om. rewrite Om, O. eapply Fate_led; [exact K|exact D|]. eapply fortune_iff; [exact Tk|exact Sp|].
         exists c2. split; [exact Eu|exact Om]. }
    all: apply pair_equal_spec in E as [E <-]; apply pair_equal_spec in E as [<- <-]; apply Fate_refused; [discriminate|]; apply VI; [exact Rs|eauto].
  - intros Lt. revert Sp. remember (b :: more) as bs eqn:Eb. destruct Lt as [b0 more0 p0 x0 o N V|ss b0 more0 p0 o1 p1 n extra rest l0 o K D L]; injection Eb as -> ->; intros Sp.
    + apply VI in V as (c & E & O); [|exact Rs]. rewrite E1 in E. apply pair_equal_spec in E as [-> <-].
      exists (csrc c0 s'). split; [|exact O]. destruct x0 as [[]|e| |]; [congruence|reflexivity..].
    + destruct (T _ _ _ _ K) as (ok & o' & p' & D' & X). destruct (delivery_one _ _ _ _ _ _ _ _ D D') as (-> & -> & ->). destruct X as (-> & O & Tk).
      destruct (proj2 (fortune_iff m _ _ _ _ q _ _ _ _ _ 1 _ l0 o Tk Sp) L) as (c2 & E2 & O2). rewrite E2. exists c2. rewrite O2. change (c_writer (csrc c0 s')) with (c_writer c0). rewrite O. auto.
Qed.

(** ** Consequences *)
Theorem fate_healthy m g q bs p x l out : bs <> [] -> healthy (writer_new p) -> zlen (concat bs) + 1 < 2 ^ 64 -> 1 + spent q l < 2 ^ 64 -> (fate m g q bs p x l out <-> lifespan m g q bs x l out).
Proof.
  intros N H R Sp. rewrite <- (breaking_stretches bs N) in R |- *. rewrite <- (fate_iff m q (breaking bs) p g x l out R Sp). exact (lifespan_iff m q (breaking bs) p g x l out H R Sp).
Qed.
Theorem venture_prefix m g b p x out : venture m g b p x out -> exists y st unsent, building m g b y st /\ all_sent y st = out ++ unsent /\ (x = y /\ unsent = [] \/ x = Err IoFailure).
Proof.
  intros [y st o p' B D|y st o p' B N D|e st o1 p1 ok o2 p2 B N D1 D2].
  - destruct (delivery_false _ _ _ _ D) as (u & E). exists y, st. unfold all_sent. rewrite E. eexists. split; [exact B|]. split; [rewrite <- app_assoc; reflexivity|]. auto.
  - apply delivery_true in D as ->. exists y, st, []. split; [exact B|]. split; [|auto]. unfold all_sent. f_equal. destruct y as [u|e| |]; try reflexivity. rewrite (N e eq_refl). reflexivity.
  - apply delivery_true in D1 as ->. exists (Err e), st. unfold all_sent. destruct ok.
    + apply delivery_true in D2 as ->. exists []. rewrite app_nil_r. auto.
    + destruct (delivery_false _ _ _ _ D2) as (u & E). exists u. rewrite E. split; [exact B|]. split; [rewrite <- app_assoc; reflexivity|]. auto.
Qed.
Lemma dispatch_all key iv t fs j p ok out j' p' : dispatch key iv t fs j p ok out j' p' -> ok = true -> out = sealed_stream key iv j t fs /\ j' = j + zlen fs.
Proof.
  induction 1 as [j p|f fs j p o1 p1 ok out j' p' D Di IH|f fs j p out p' D]; intros Eo; [split; [reflexivity|change (zlen (@nil bytes)) with 0; lia]| |discriminate].
  destruct (IH Eo) as (-> & ->). apply delivery_true in D as ->. rewrite zlen_cons. split; [reflexivity|lia].
Qed.
Lemma dispatch_cut key iv t fs j p ok out j' p' : dispatch key iv t fs j p ok out j' p' -> ok = false ->
  exists a f b part unsent, fs = a ++ f :: b /\ j' = j + zlen a /\ out = sealed_stream key iv j t a ++ part /\ sealed_record key iv j' t f = part ++ unsent.
Proof.
  induction 1 as [j p|f fs j p o1 p1 ok out j' p' D Di IH|f fs j p out p' D]; intros Eo; [discriminate| |].
  - destruct (IH Eo) as (a & f0 & b & part & u & -> & -> & -> & E). apply delivery_true in D as ->. exists (f :: a), f0, b, part, u. rewrite zlen_cons. split; [reflexivity|]. split; [lia|]. split; [cbn [sealed_stream]; rewrite <- app_assoc; reflexivity|exact E].
  - destruct (delivery_false _ _ _ _ D) as (u & E). exists [], f, fs, out, u. change (zlen (@nil bytes)) with 0. split; [reflexivity|]. split; [lia|]. split; [reflexivity|exact E].
Qed.
Theorem write_breaks m c key iv k d : keyed_w m (c_writer c) key iv k -> k + zlen d < 2 ^ 64 -> forall x c1, client_write m d c = (x, c1) -> x = Ok (zlen d) \/
  x = Err IoFailure /\ exists a f b part unsent, parcels d (a ++ f :: b) /\ w_out (c_writer c1) = w_out (c_writer c) ++ sealed_stream key iv k ApplicationDataTy a ++ part /\
    keyed_w m (c_writer c1) key iv (k + zlen a) /\ sealed_record key iv (k + zlen a) ApplicationDataTy f = part ++ unsent.
Proof.
  intros K R x c1 E. destruct (parcels_any d) as (fs & P). destruct (write_dispatch m key iv k d c fs P K R) as (ok & out & k' & c' & D & E' & _ & _ & O & K' & _). rewrite E in E'. apply pair_equal_spec in E' as [-> ->].
  destruct ok; [left; reflexivity|right; split; [reflexivity|]]. destruct (dispatch_cut _ _ _ _ _ _ _ _ _ _ D eq_refl) as (a & f & b & part & u & -> & -> & -> & Es). exists a, f, b, part, u. auto.
Qed.
Lemma delivery_first t maj min f k p : zlen f <= 18432 -> delivery (WFail k :: p) (wire t maj min f) false (firstn k [z2b (rfc_content_type t)]) p.
Proof. intros L. eexists. split; [rewrite <- (app_nil_r (wire _ _ _ _)); constructor; [exact L|constructor]|reflexivity]. Qed.
Lemma delivery_free t maj min f : zlen f <= 18432 -> delivery [] (wire t maj min f) true (wire t maj min f) [].
Proof.
  intros L. assert (Sl : sliced (wire t maj min f) ([z2b (rfc_content_type t)] :: [maj] :: [min] :: be 2 (zlen f) :: f :: [])) by (rewrite <- (app_nil_r (wire _ _ _ _)); constructor; [exact L|constructor]).
  eexists. split; [exact Sl|]. rewrite <- (sliced_concat _ _ Sl) at 1.
  assert (G : forall l, given_out [] l = (true, concat l, [])) by (clear; induction l as [|[|s0 s] l IH]; [reflexivity|exact IH|]; cbn [given_out]; rewrite IH; reflexivity). apply G.
Qed.
(** a failure that took nothing of the next record *)
Theorem clean_retry m c key iv k d p : keyed_w m (c_writer c) key iv k -> w_plan (c_writer c) = WFail 0 :: p -> d <> [] -> k + zlen d < 2 ^ 64 ->
  exists c1, client_write m d c = (Err IoFailure, c1) /\ w_out (c_writer c1) = w_out (c_writer c) /\ keyed_w m (c_writer c1) key iv k /\ w_plan (c_writer c1) = p.
Proof.
  intros K P N R. destruct (parcels_any d) as (fs & Pa). destruct (write_dispatch m key iv k d c fs Pa K R) as (ok & out & k' & c' & D & E' & _ & _ & O & K' & _). rewrite P in D.
  destruct (fragments_legal d) as (_ & Lf & _). cbv zeta in Lf. rewrite <- (proj1 (parcels_iff _ _) Pa) in Lf.
  destruct fs as [|f fs]; [apply parcels_iff in Pa; destruct (fragments_legal d) as (X & _); cbv zeta in X; rewrite <- Pa in X; cbn in X; congruence|].
  inversion Lf as [|? ? [L1 L2] _]; subst.
  assert (D0 : dispatch key iv ApplicationDataTy (f :: fs) k (WFail 0 :: p) false [] k p) by (apply Di_cut; apply (delivery_first ApplicationDataTy x03 x03 _ 0 p); rewrite sealed_len; lia).
  destruct (dispatch_one _ _ _ _ _ _ _ _ _ _ D0 _ _ _ _ D) as (-> & -> & -> & Ep). exists c'. rewrite app_nil_r in O. auto.
Qed.
Lemma cut_again m c key iv k b n : standing m c key iv [] k [] [b] -> k + zlen b < 2 ^ 64 -> cut_record b -> (0 < n)%nat -> forall j, Forall (eq (Ok [])) (tries m n j c).
Proof.
  intros (P & B) K Cu Ln j. assert (N : incomplete []) by (apply none_iff; reflexivity). pose proof (zlen_nonneg b). destruct j as [|j]; [constructor|]. cbn [tries].
  destruct (cut_lost m _ key iv k [] b [] P K N Cu) as (r1 & E1 & P1). rewrite (rd_read m n c (Ok []) (with_buf c r1 [])) by (eapply Rd_err; [cbn; lia|exact B|exact E1]). constructor; [reflexivity|].
  apply (nothing_again m _ key iv k [] n); [split; [exact P1|reflexivity]|lia|exact N|exact Ln].
Qed.
(** one byte of the record was taken: the record that is sent again comes in the middle of one *)
Theorem retry_lost : exists m n c c1 c2 peer key iv k d, keyed_w m (c_writer c) key iv k /\ w_out (c_writer c) = [] /\ (0 < length d < n)%nat /\
  client_write m d c = (Err IoFailure, c1) /\ client_write m d c1 = (Ok (zlen d), c2) /\ standing m peer key iv [] k [] [w_out (c_writer c2)] /\
  forall j, Forall (eq (Ok [])) (tries m n j peer).
Proof.
  pose (key := repeat x00 32). pose (iv := repeat x00 12). pose (d := [x61; x62]). pose (c := Client (reader_new []) (Writer [] [WFail 1] (Some (new_encryptor Release key)) 0 (Some iv) []) [] []).
  assert (K : keyed_w Release (c_writer c) key iv 0) by (repeat split; cbn; lia). assert (Pa : parcels d [d]) by (apply P_last; split; cbv; discriminate).
  set (sd := aead_seal key (rfc_nonce iv 0) (rfc_ad 0 ApplicationDataTy x03 x03 (zlen d)) d). assert (Ls : zlen sd = 18) by (unfold sd; rewrite sealed_len; reflexivity).
  destruct (write_dispatch Release key iv 0 d c [d] Pa K ltac:(reflexivity)) as (ok & out & k' & c1 & D & E & _ & _ & O & K1 & _).
  assert (D0 : dispatch key iv ApplicationDataTy [d] 0 [WFail 1] false [x17] 0 []) by (apply Di_cut; apply (delivery_first ApplicationDataTy x03 x03 sd 1 []); lia).
  destruct (dispatch_one _ _ _ _ _ _ _ _ _ _ D0 _ _ _ _ D) as (-> & -> & -> & Ep).
  destruct (write_dispatch Release key iv 0 d c1 [d] Pa K1 ltac:(reflexivity)) as (ok2 & out2 & k2 & c2 & D2 & E2 & _ & _ & O2 & K2 & _). rewrite Ep in D2.
  assert (D3 : dispatch key iv ApplicationDataTy [d] 0 [] true (wire ApplicationDataTy x03 x03 sd ++ []) 1 []) by (eapply Di_sent; [apply (delivery_free ApplicationDataTy x03 x03 sd); lia|apply Di_none]).
  destruct (dispatch_one _ _ _ _ _ _ _ _ _ _ D3 _ _ _ _ D2) as (-> & -> & -> & _). rewrite app_nil_r in O2.
  set (o := w_out (c_writer c2)) in *. assert (Eo : o = x17 :: wire ApplicationDataTy x03 x03 sd) by (rewrite O2, O; reflexivity).
  pose (peer := Client (Reader (breaking [o]) (Some (new_decryptor Release key)) 0 [] (Some iv)) (writer_new []) [] []).
  assert (St : standing Release peer key iv [] 0 [] [o]) by (split; [|reflexivity]; pose proof (some_placed Release (breaking [o]) key iv 0 [] eq_refl eq_refl ltac:(lia)) as P; rewrite breaking_stretches in P by discriminate; exact P).
  assert (Ew : wire ApplicationDataTy x03 x03 sd = x17 :: x03 :: x03 :: x00 :: x12 :: sd) by (unfold wire; rewrite Ls; reflexivity).
  assert (Lo : zlen o = 24) by (rewrite Eo, Ew, !zlen_cons, Ls; reflexivity).
  exists Release, 10%nat, c, c1, c2, peer, key, iv, 0, d. split; [exact K|]. split; [reflexivity|]. split; [cbn; lia|]. split; [exact E|]. split; [exact E2|]. split; [exact St|].
  apply (cut_again Release peer key iv 0 o 10 St); [lia| |lia]. right. exists ApplicationDataTy, (x17 :: x03 :: x03 :: x00 :: x12 :: sd). split; [rewrite Eo, Ew; reflexivity|].
  right. exists x17, x03, 768, (x12 :: sd). split; [reflexivity|]. rewrite zlen_cons, Ls. lia.
Qed.
(** examples *)
Lemma hello_lost m : fate m one_tape Quit [[]] [WFail 3] (Err IoFailure) [] [x16].
Proof.
  apply Fate_refused; [discriminate|]. destruct (early_run m) as (B & _). eapply V_cut; [exact B|]. apply (delivery_first HandshakeTy x03 x03 _ 3 []). vm_compute. discriminate.
Qed.
Lemma alert_lost m : fate m one_tape Quit [[xff]] [WOk; WOk; WOk; WOk; WOk; WFail 1] (Err IoFailure) [] (flight_hello (firstn 32 one_tape) ++ [x15]) /\
  fate m one_tape Quit [[xff]] [WOk; WOk; WOk; WOk; WOk] (Err UnexpectedMessage) [] (flight_hello (firstn 32 one_tape) ++ [x15; x03; x03; x00; x02; x02; x0a]).
Proof.
  destruct (early_run m) as (_ & B & _). cbv zeta in B.
  split.
  - apply Fate_refused; [discriminate|]. apply (V_alert m one_tape [xff] _ UnexpectedMessage (Hello (firstn 32 one_tape)) _ [WFail 1] false [x15] []); [exact B|discriminate| |].
    + eexists. split; [cbn [stage_out]; unfold flight_hello; rewrite <- (app_nil_r (e_record _ _)); apply (Sl_record HandshakeTy x03 x03); [vm_compute; discriminate|constructor]|]. vm_compute. reflexivity.
    + apply (delivery_first AlertTy x03 x03 [x02; x0a] 1 []). discriminate.
  - apply Fate_refused; [discriminate|]. apply (V_alert m one_tape [xff] _ UnexpectedMessage (Hello (firstn 32 one_tape)) _ [] true [x15; x03; x03; x00; x02; x02; x0a] []); [exact B|discriminate| |].
    + eexists. split; [cbn [stage_out]; unfold flight_hello; rewrite <- (app_nil_r (e_record _ _)); apply (Sl_record HandshakeTy x03 x03); [vm_compute; discriminate|constructor]|]. vm_compute. reflexivity.
    + apply (delivery_free AlertTy x03 x03 [x02; x0a]). discriminate.
Qed.
Lemma written_twice ks ivs kc ivc k pend bs j : fortune ks ivs kc ivc (Do (Write [x61]) (fun a => match a with Wrote (Err _) => Do (Write [x61]) (fun _ => Quit) | _ => Quit end)) [] k pend bs j [WOk; WFail 0]
  [Wrote (Err IoFailure); Wrote (Ok 1)] ([x17] ++ sealed_record kc ivc j ApplicationDataTy [x61]).
Proof.
  assert (L : zlen (aead_seal kc (rfc_nonce ivc j) (rfc_ad j ApplicationDataTy x03 x03 (zlen [x61])) [x61]) <= 18432) by (rewrite sealed_len; change (zlen [x61]) with 1; lia).
  assert (P : parcels [x61] [[x61]]) by (apply P_last; split; cbv; discriminate).
  apply (F_write ks ivs kc ivc [x61] _ [] k pend bs j _ [[x61]] false [x17] j []); [exact P| |].
  - apply Di_cut. eexists. split; [unfold sealed_record, e_record; rewrite <- (app_nil_r (wire _ _ _ _)); constructor; [exact L|constructor]|]. reflexivity.
  - rewrite <- (app_nil_r (sealed_record _ _ _ _ _)). apply (F_write ks ivs kc ivc [x61] (fun _ => Quit) [] k pend bs j [] [[x61]] true _ (j + 1) []); [exact P| |apply F_quit].
    rewrite <- (app_nil_r (sealed_record _ _ _ _ _)). eapply Di_sent; [apply (delivery_free ApplicationDataTy x03 x03); exact L|apply Di_none].
Qed.

(** ** The example program *)
Definition ended (a : answer) : Prop := match a with Got x => x <> Diverge | Wrote x => x <> Diverge | Closed x => x <> Diverge end.
Lemma fortune_ends ks ivs kc ivc q buf k pend bs j p l out : fortune ks ivs kc ivc q buf k pend bs j p l out -> Forall ended l.
Proof. induction 1; repeat constructor; try assumption; cbn [ended]; try discriminate; destruct ok; discriminate. Qed.
Lemma example_sits m s p g y l c : sitting m example_calls s p g = (y, l, c) -> Forall ended l -> example m true s p g = (fst (told y l), snd (told y l), c).
Proof.
  unfold sitting, example, from_tcp. pose proof (new_halts m s p g) as Hn. destruct (client_new m s p g) as [y0 c0] eqn:En. cbn [fst] in Hn.
  destruct y0 as [[]|e| |]; [|intros E _; apply pair_equal_spec in E as [E <-]; apply pair_equal_spec in E as [<- <-]; reflexivity..|destruct Hn].
  cbn [unwrap]. rewrite request_text. unfold example_calls. cbn [use do_call]. destruct (client_write m head_request c0) as [x1 c1]. destruct x1 as [n|e| |]; cbn [crashed unwrap use do_call].
  - destruct (client_read m (Z.to_nat 4096) c1) as [x2 c2] eqn:E2. destruct x2 as [d|e| |]; cbn [crashed unwrap use do_call].
    + destruct (client_close m c2) as [x3 c3]. pose proof (read_length _ _ _ _ _ E2) as Ld. assert (Pd : padded (Z.to_nat 4096) d = d ++ repeat x00 (Z.to_nat 4096 - length d)) by (rewrite padded_eq, firstn_all2 by exact Ld; reflexivity).
      destruct x3 as [[]|e| |]; cbn [crashed unwrap use]; intros E F; apply pair_equal_spec in E as [E <-]; apply pair_equal_spec in E as [<- <-]; cbn [told fst snd]; rewrite ?Pd; try reflexivity.
      inversion F as [|? ? _ F1]. inversion F1 as [|? ? _ F2]. inversion F2 as [|? ? D _]. exfalso. apply D. reflexivity.
    + intros E F. apply pair_equal_spec in E as [E <-]. apply pair_equal_spec in E as [<- <-]. reflexivity.
    + intros E F. apply pair_equal_spec in E as [E <-]. apply pair_equal_spec in E as [<- <-]. reflexivity.
    + intros E F. apply pair_equal_spec in E as [E <-]. apply pair_equal_spec in E as [<- <-]. inversion F as [|? ? _ F1]. inversion F1 as [|? ? D _]. exfalso. apply D. reflexivity.
  - intros E F. apply pair_equal_spec in E as [E <-]. apply pair_equal_spec in E as [<- <-]. reflexivity.
  - intros E F. apply pair_equal_spec in E as [E <-]. apply pair_equal_spec in E as [<- <-]. reflexivity.
  - intros E F. apply pair_equal_spec in E as [E <-]. apply pair_equal_spec in E as [<- <-]. inversion F as [|? ? D _]. exfalso. apply D. reflexivity.
Qed.
Lemma example_cost l : 1 + spent example_calls l < 2 ^ 64.
Proof.
  assert (Hh : zlen head_request <= 100) by (vm_compute; discriminate).
  assert (Q : forall l', spent Quit l' = 0) by (intros []; reflexivity).
  unfold example_calls. destruct l as [|a l]; [reflexivity|]. cbn [spent]. change (Spec_Client.call_cost (Write head_request)) with (zlen head_request).
  destruct a as [r|[n|e| |]|r]; rewrite ?Q; try lia. destruct l as [|b l]; [cbn [spent]; lia|]. cbn [spent]. change (Spec_Client.call_cost (Read (Z.to_nat 4096))) with 0.
  destruct b as [[d|e| |]|r|r]; rewrite ?Q; try lia. destruct l as [|a3 l]; [cbn [spent]; lia|]. cbn [spent]. rewrite ?Q. change (Spec_Client.call_cost Close) with 1. lia.
Qed.
Theorem example_fate m s p g x shown out : zlen (concat (stretches s)) + 1 < 2 ^ 64 ->
  ((exists c, example m true s p g = (x, shown, c) /\ w_out (c_writer c) = out) <-> exists y l, fate m g example_calls (stretches s) p y l out /\ (x, shown) = told y l).
Proof.
  intros R. assert (En : forall y l o, fate m g example_calls (stretches s) p y l o -> Forall ended l) by (intros y l o [? ? ? ? ? ? ?|? ? ? ? ? ? ? ? ? ? ? ? ? F]; [constructor|exact (fortune_ends _ _ _ _ _ _ _ _ _ _ _ _ _ F)]).
  destruct (sitting m example_calls s p g) as [[y l] c] eqn:E. assert (F : fate m g example_calls (stretches s) p y l (w_out (c_writer c))) by (apply fate_iff; [exact R|apply example_cost|eauto]).
  rewrite (example_sits m s p g y l c E (En _ _ _ F)). split.
  - intros (c' & X & <-). apply pair_equal_spec in X as [X <-]. exists y, l. split; [exact F|]. rewrite <- X. symmetry. apply surjective_pairing.
  - intros (y2 & l2 & F2 & T). apply fate_iff in F2 as (c2 & E2 & O2); [|exact R|apply example_cost]. rewrite E in E2. apply pair_equal_spec in E2 as [E2 <-]. apply pair_equal_spec in E2 as [<- <-]. exists c. split; [|exact O2].
    rewrite <- T. reflexivity.
Qed.
Lemma example_hello_lost m : fate m one_tape example_calls [[]] [WFail 3] (Err IoFailure) [] [x16].
Proof.
  apply Fate_refused; [discriminate|]. destruct (early_run m) as (B & _). eapply V_cut; [exact B|]. apply (delivery_first HandshakeTy x03 x03 _ 3 []). vm_compute. discriminate.
Qed.
