(** C95: transports whose reads fail, or give nothing, and go on afterwards. *)
From Verif Require Import Spec_Broken P_Util P_Codec P_CodecProps P_RecordW P_RecordR P_Record P_Record2 P_Aead P_Ecdhe P_Halt P_Client P_Client2 P_App P_App2 P_Panic P_Client3 P_Fault P_Client4 P_Client5 P_Pending P_Open P_Eof P_Ops P_Std P_Talk P_Talk2 P_Talk3 P_Talk4 P_Accept P_Receive P_Build P_Life.
From Coq Require Import ZifyBool ZifyNat ZifyN.
Local Open Scope list_scope.
Local Open Scope Z_scope.
#[local] Opaque SHA256 HMAC aead_seal aead_decrypt aead_encrypt compute_keys PRF nmul.

(** ** Stretches *)
Lemma stretches_cons s : exists l, stretches s = stream s :: l.
Proof.
  induction s as [|[[|b bs]|] s (l & IH)]; cbn [stretches stream]; eauto. rewrite IH. eexists. reflexivity.
Qed.
Lemma like_stretches b t t' s : halts_at t t' -> like b t s -> stretches s = b :: tl (stretches t) /\ stretches t' = onward (tl (stretches t)).
Proof.
  intros H (a & C & E & ->). split.
  - revert b E. induction C as [|e a (x & xs & ->) C IH]; intros b E; subst b.
    + cbn [app stream]. destruct H as [-> |[-> |(-> & ->)]]; reflexivity.
    + cbn [app stretches stream]. rewrite (IH _ eq_refl). reflexivity.
  - destruct H as [-> |[-> |(-> & ->)]]; cbn [stretches tl]; try reflexivity; destruct (stretches_cons t') as (l & ->); reflexivity.
Qed.
Lemma stretch_like s : exists t t', halts_at t t' /\ like (stream s) t s.
Proof.
  induction s as [|[[|b bs]|] s (t & t' & H & (a & C & E & Es))].
  - exists [], []. split; [right; right; auto|apply like_nil].
  - exists (RData [] :: s), s. split; [right; left; reflexivity|apply like_nil].
  - exists t, t'. split; [exact H|]. exists (RData (b :: bs) :: a). split; [constructor; eauto|]. cbn [stream]. rewrite E. split; [reflexivity|]. rewrite Es at 1. reflexivity.
  - exists (RErr :: s), s. split; [left; reflexivity|apply like_nil].
Qed.
Lemma canon b : like b [] (source b).
Proof.
  exists (source b). split; [apply source_clean|]. split; [apply source_stream|]. rewrite app_nil_r. reflexivity.
Qed.
Lemma clean_stretches s : clean s -> stretches s = [stream s].
Proof. intros C. assert (L : like (stream s) [] s) by (exists s; rewrite app_nil_r; auto). exact (proj1 (like_stretches _ _ [] _ (or_intror (or_intror (conj eq_refl eq_refl))) L)). Qed.

(** ** Answers that do not want more bytes *)
Lemma lifted {A} (act : M reader A) r b x r1 : r_causal act r b -> act (set_src r (source b)) = (x, r1) -> x <> Err IoFailure ->
  forall t s, like b t s -> exists s', act (set_src r s) = (x, set_src r1 s') /\ like (stream (r_src r1)) t s'.
Proof.
  intros [(y & r' & b' & _ & D)|(r' & W)] E N t s L.
  - destruct (D _ _ (canon b)) as (s0 & E0 & L0). rewrite E in E0. apply pair_equal_spec in E0 as [-> ->].
    destruct (D t s L) as (s' & E' & L'). exists s'. rewrite E', src_src. split; [reflexivity|]. cbn [set_src r_src]. rewrite <- (like_bytes _ _ L0) in L'.
    destruct L0 as (a0 & C0 & S0 & ->). rewrite app_nil_r in *. rewrite (like_bytes b' a0) in L' by (exists a0; rewrite app_nil_r; auto). rewrite S0. exact L'.
  - rewrite (W [] [] _ (or_intror (or_intror (conj eq_refl eq_refl))) (canon b)) in E. apply pair_equal_spec in E as [<- _]. congruence.
Qed.

(** ** The end of a stretch in the middle of a record *)
Lemma r_like w b n r t s : like (w ++ b) t s -> n = length w -> exists s', r_read n (set_src r s) = (Ok w, set_src r s') /\ like b t s'.
Proof.
  intros L ->. destruct (fill_like t (length w) _ s L) as (s' & F & L'); [rewrite app_length; lia|]. exists s'. rewrite firstn_app, firstn_all, Nat.sub_diag, app_nil_r in F.
  rewrite skipn_app, skipn_all, Nat.sub_diag in L'. split; [|exact L']. unfold r_read. cbn [set_src r_src]. rewrite F. reflexivity.
Qed.
Lemma r_short (b : bytes) n r t t' s : halts_at t t' -> like b t s -> (length b < n)%nat -> r_read n (set_src r s) = (Err IoFailure, set_src r t').
Proof. intros H L Ln. unfold r_read. cbn [set_src r_src]. rewrite (fill_wait t t' H n b s L Ln). reflexivity. Qed.
Lemma cut_wait m b r t t' s : cut_record b -> halts_at t t' -> like b t s -> read_record m (set_src r s) = (Err IoFailure, set_src r t').
Proof.
  intros Cu H L. unfold read_record. destruct Cu as [-> |(ty & l & -> & Cu)].
  - unfold mbind at 1. rewrite (r_short _ _ _ _ _ _ H L) by (cbn; lia). reflexivity.
  - destruct (r_like [z2b (rfc_content_type ty)] l 1 r t s L eq_refl) as (s1 & F1 & L1). unfold mbind at 1. rewrite F1, ct_here.
    destruct l as [|maj l]; [unfold mbind at 1; rewrite (r_short _ _ _ _ _ _ H L1) by (cbn; lia); reflexivity|].
    destruct (r_like [maj] l 1 r t s1 L1 eq_refl) as (s2 & F2 & L2). unfold mbind at 1. rewrite F2.
    destruct l as [|min l]; [unfold mbind at 1; rewrite (r_short _ _ _ _ _ _ H L2) by (cbn; lia); reflexivity|].
    destruct (r_like [min] l 1 r t s2 L2 eq_refl) as (s3 & F3 & L3). unfold mbind at 1. rewrite F3.
    destruct Cu as [Cu|(maj' & min' & n & f & E & Hf)].
    { rewrite !zlen_cons in Cu. unfold mbind at 1. rewrite (r_short _ _ _ _ _ _ H L3) by (unfold zlen in Cu; lia). reflexivity. }
    injection E as -> -> ->. pose proof (zlen_nonneg f).
    destruct (r_like (be 2 n) f 2 r t s3 L3 ltac:(rewrite be_length; reflexivity)) as (s4 & F4 & L4). unfold mbind at 1. rewrite F4.
    assert (Hv : be_val (be 2 n) = n) by (rewrite be_val_be; apply Z.mod_small; change (256 ^ Z.of_nat 2) with 65536; lia).
    rewrite Hv. replace (ENC_RECORD_MAX_LEN <? n) with false by (symmetry; apply Z.ltb_ge; unfold ENC_RECORD_MAX_LEN; lia).
    unfold mbind at 1. rewrite (r_short _ _ _ _ _ _ H L4) by (unfold zlen in Hf; lia). reflexivity.
Qed.

(** ** One call of [read_application_data] *)
Lemma placed_like m r key iv k pend b l : placed m r key iv k pend (b :: l) -> exists t t', halts_at t t' /\ like b t (r_src r) /\ l = tl (stretches t) /\ stretches t' = onward l.
Proof.
  intros (_ & _ & S). destruct (stretch_like (r_src r)) as (t & t' & H & L). destruct (like_stretches _ _ _ _ H L) as (A & B). rewrite S in A. injection A as A1 A2. rewrite <- A1 in L.
  exists t, t'. rewrite A2. auto.
Qed.
Lemma placed_source m r key iv k pend b l : placed m r key iv k pend (b :: l) -> poised m (set_src r (source b)) key iv k pend b.
Proof. intros (Kd & B & _). split; [exact Kd|]. split; [apply source_clean|]. split; [exact B|apply source_stream]. Qed.
Lemma more_placed m r key iv k pend maj min p f b l : placed m r key iv k pend ((wire HandshakeTy maj min f ++ b) :: l) -> k + zlen (wire HandshakeTy maj min f ++ b) < 2 ^ 64 -> incomplete pend ->
  protects key iv k HandshakeTy maj min p f -> legal_fragment p -> exists r1, read_application_data m r = read_application_data m r1 /\ placed m r1 key iv (k + 1) (pend ++ p) (b :: l).
Proof.
  intros P Room N Pr Lp. destruct (placed_like _ _ _ _ _ _ _ _ P) as (t & t' & Ht & L & El & Et). destruct (placed_source _ _ _ _ _ _ _ _ P) as (Kd & C & B & S). pose proof P as (Kr & Br & _).
  rewrite long_wire in Room. pose proof (zlen_nonneg f). pose proof (zlen_nonneg b). pose proof (protects_len _ _ _ _ _ _ _ _ Pr) as Lf. pose proof Lp as [L1 L2]. assert (Lx : zlen f <= 18432) by lia.
  destruct (record_whole m _ key iv k HandshakeTy maj min f b C Kd ltac:(lia) Lx S) as (r1 & S1 & C1 & B1 & [(p' & Q & _ & E & Kd1)|[(p' & Q & Lq & _)|(Nn & _)]]);
    [|rewrite (protects_once _ _ _ _ _ _ _ _ _ _ _ Kd ltac:(lia) Lx Q Pr) in Lq; lia|destruct (Nn _ Pr)].
  rewrite (protects_once _ _ _ _ _ _ _ _ _ _ _ Kd ltac:(lia) Lx Q Pr) in E.
  destruct (lifted _ _ _ _ _ (rc_record m r _) E ltac:(discriminate) t _ L) as (s' & E' & L'). rewrite set_src_id in E'. rewrite S1 in L'.
  destruct (like_stretches _ _ _ _ Ht L') as (St & _).
  exists (set_buf (set_src r1 s') (pend ++ p)). rewrite (app_handed _ _ _ _ _ Kr). apply none_iff in N. rewrite <- Br in N |- *. rewrite (message_absorbs _ _ _ _ _ _ N (legal_ne _ Lp) E').
  split; [symmetry; apply (app_handed m _ key iv (k + 1)); exact Kd1|]. split; [exact Kd1|]. split; [reflexivity|]. cbn [set_buf set_src r_src]. rewrite St, El. reflexivity.
Qed.
Lemma starves_len key iv k pend b k' pend' : starves key iv k pend b k' pend' -> k <= k' <= k + zlen b.
Proof.
  induction 1 as [k pend b N C|k pend maj min p f b k' pend' N P L St IH]; [pose proof (zlen_nonneg b); lia|]. rewrite long_wire. pose proof (zlen_nonneg f). lia.
Qed.
Lemma starves_sound m key iv k pend b k' pend' : starves key iv k pend b k' pend' -> forall r l, placed m r key iv k pend (b :: l) -> k + zlen b < 2 ^ 64 ->
  exists r', read_application_data m r = (Err IoFailure, r') /\ placed m r' key iv k' pend' (onward l).
Proof.
  induction 1 as [k pend b N C|k pend maj min p f b k' pend' N P L St IH]; intros r l Pl Room.
  - destruct (placed_like _ _ _ _ _ _ _ _ Pl) as (t & t' & Ht & Lk & El & Et). pose proof Pl as (Kr & Br & _). apply none_iff in N. rewrite <- Br in N.
    exists (set_src r t'). rewrite (app_handed _ _ _ _ _ Kr), message_record by exact N. unfold mbind at 1. rewrite <- (set_src_id r) at 1. rewrite (cut_wait m b r t t' _ C Ht Lk).
    split; [reflexivity|]. split; [exact Kr|]. split; [exact Br|exact Et].
  - destruct (more_placed _ _ _ _ _ _ _ _ _ _ _ _ Pl Room N P L) as (r1 & -> & P1). apply IH; [exact P1|]. rewrite long_wire in Room. pose proof (zlen_nonneg f). lia.
Qed.
Lemma receive_placed key iv k pend b x k' pend' b' : receive key iv k pend b x k' pend' b' ->
  (starves key iv k pend b k' pend' /\ x = Err IoFailure /\ b' = []) \/
  forall m r l, placed m r key iv k pend (b :: l) -> k + zlen b < 2 ^ 64 -> exists r', read_application_data m r = (x, r') /\ placed m r' key iv k' pend' (b' :: l).
Proof.
  intros R. assert (D : x = Err IoFailure \/ x <> Err IoFailure) by (destruct x as [|[]| |]; (left; reflexivity) || (right; discriminate)). destruct D as [D|D].
  2:{ right. intros m r l P Room. destruct (placed_like _ _ _ _ _ _ _ _ P) as (t & t' & Ht & L & El & Et).
      destruct (receive_sound m _ _ _ _ _ _ _ _ _ R _ (placed_source _ _ _ _ _ _ _ _ P) Room) as (r1 & E & (Kd & C & B & S) & _).
      destruct (lifted _ _ _ _ _ (rc_app m r _) E D t _ L) as (s' & E' & L'). rewrite set_src_id in E'. exists (set_src r1 s'). split; [exact E'|]. split; [exact Kd|]. split; [exact B|].
      destruct (like_stretches _ _ _ _ Ht L') as (St & _). cbn [set_src r_src]. rewrite St, S, El. reflexivity. }
  induction R as [k ty body q bs x L U|k pend bs N Cu|k pend b bs N T|k pend t maj min n bs N T|k pend t maj min f bs N L P|k pend t maj min p f bs N L P T|
    k pend t maj min p f bs x N P L M|k pend maj min f bs N P|k pend maj min p f bs x k' pend' bs' N P L R IH]; try discriminate D.
  - right. intros m r l (Kd & B & S) Room. exists (set_buf r q). rewrite (app_handed _ _ _ _ _ Kd). split; [|split; [exact Kd|split; [reflexivity|exact S]]].
    rewrite read_message_eq, B, frame_cons, get_message_framed by (pose proof (zlen_nonneg body); lia || reflexivity). rewrite <- frame_cons.
    destruct U as [(-> & h & ->)|(e & -> & ->)]; reflexivity.
  - left. split; [apply S_end; assumption|]. auto.
  - subst x. inversion M.
  - destruct (IH D) as [(St & -> & ->)|Rt]; [left; split; [eapply S_more; eassumption|auto]|]. right. intros m r l Pl Room.
    destruct (more_placed _ _ _ _ _ _ _ _ _ _ _ _ Pl Room N P L) as (r1 & -> & P1). apply Rt; [exact P1|]. rewrite long_wire in Room. pose proof (zlen_nonneg f). lia.
Qed.
Lemma placed_once m r key iv k pend l k' pend' l' : placed m r key iv k pend l -> placed m r key iv k' pend' l' -> k = k' /\ pend = pend' /\ l = l'.
Proof. intros ((_ & _ & A & _) & B & C) ((_ & _ & A' & _) & B' & C'). subst. auto. Qed.
Lemma concat_onward (l : list bytes) : concat (onward l) = concat l. Proof. destruct l; reflexivity. Qed.
Lemma catches_shorter key iv k pend l x k' pend' l' : catches key iv k pend l x k' pend' l' ->
  k <= k' /\ k' + zlen (concat l') <= k + zlen (concat l) /\ (forall d, x = Ok d -> (length (concat l') < length (concat l))%nat) /\ l' <> [] /\ x <> Diverge.
Proof.
  intros [k0 p0 b l0 y k1 p1 b' R _|k0 p0 b l0 k1 p1 St].
  - destruct (receive_shorter _ _ _ _ _ _ _ _ _ R) as (A & B & C). cbn [concat]. rewrite !zlen_app, !app_length. split; [exact A|]. split; [lia|]. split; [|split; [discriminate|]].
    + intros d E. specialize (C d E). lia.
    + intros ->. clear - R. remember Diverge as y eqn:E. induction R; try discriminate; auto.
      * destruct H0 as [(-> & _)|(e & -> & _)]; discriminate E.
      * destruct H2; discriminate E.
  - apply starves_len in St. rewrite concat_onward. cbn [concat]. rewrite zlen_app. split; [lia|]. split; [lia|]. split; [discriminate|]. split; [destruct l0; discriminate|discriminate].
Qed.
Lemma catches_sound m key iv k pend l x k' pend' l' : catches key iv k pend l x k' pend' l' -> forall r, placed m r key iv k pend l -> k + zlen (concat l) < 2 ^ 64 ->
  exists r', read_application_data m r = (x, r') /\ placed m r' key iv k' pend' l'.
Proof.
  intros [k0 p0 b l0 y k1 p1 b' R N|k0 p0 b l0 k1 p1 St] r P Room; cbn [concat] in Room; rewrite zlen_app in Room; pose proof (zlen_nonneg (concat l0)).
  - destruct (receive_placed _ _ _ _ _ _ _ _ _ R) as [(St & _)|Rt]; [destruct (N _ _ St)|]. apply Rt; [exact P|lia].
  - eapply starves_sound; [exact St|exact P|lia].
Qed.
Lemma marked_stretches b : stretches (source b ++ [RErr]) = [b; []].
Proof.
  assert (L : like b [RErr] (source b ++ [RErr])) by (exists (source b); split; [apply source_clean|]; split; [apply source_stream|reflexivity]).
  exact (proj1 (like_stretches _ _ [] _ (or_introl eq_refl) L)).
Qed.
Lemma not_both key iv k pend b x k' pend' b' k2 pend2 : length key = 32%nat -> length iv = 12%nat -> 0 <= k -> k + zlen b < 2 ^ 64 -> starves key iv k pend b k2 pend2 ->
  (forall m r l, placed m r key iv k pend (b :: l) -> k + zlen b < 2 ^ 64 -> exists r', read_application_data m r = (x, r') /\ placed m r' key iv k' pend' (b' :: l)) -> False.
Proof.
  intros Lk Li K0 Room St Rt. pose (r := Reader (source b ++ [RErr]) (Some (new_decryptor Release key)) k pend (Some iv)).
  assert (P : placed Release r key iv k pend (b :: [[]])) by (split; [repeat split; assumption|]; split; [reflexivity|]; apply marked_stretches).
  destruct (Rt _ _ _ P Room) as (r1 & E1 & P1). destruct (starves_sound _ _ _ _ _ _ _ _ St _ _ P Room) as (r2 & E2 & P2). rewrite E1 in E2. apply pair_equal_spec in E2 as [_ <-].
  destruct (placed_once _ _ _ _ _ _ _ _ _ _ P1 P2) as (_ & _ & X). discriminate X.
Qed.
Lemma catches_total key iv k pend l : length key = 32%nat -> length iv = 12%nat -> l <> [] -> 0 <= k -> k + zlen (concat l) < 2 ^ 64 ->
  exists x k' pend' l', catches key iv k pend l x k' pend' l'.
Proof.
  intros Lk Li Nl K0 Room. destruct l as [|b l]; [congruence|]. cbn [concat] in Room. rewrite zlen_app in Room. pose proof (zlen_nonneg (concat l)).
  destruct (receive_total key iv Lk Li (S (length b)) k pend b ltac:(lia) K0 ltac:(lia)) as (x & k' & pend' & b' & R).
  destruct (receive_placed _ _ _ _ _ _ _ _ _ R) as [(St & _ & _)|Rt].
  - exists (Err IoFailure), k', pend', (onward l). apply H_out. exact St.
  - exists x, k', pend', (b' :: l). apply H_here; [exact R|]. intros k2 p2 St. exact (not_both key iv k pend b x k' pend' b' k2 p2 Lk Li K0 ltac:(lia) St Rt).
Qed.
Lemma some_placed m s key iv k pend : length key = 32%nat -> length iv = 12%nat -> 0 <= k -> placed m (Reader s (Some (new_decryptor m key)) k pend (Some iv)) key iv k pend (stretches s).
Proof. intros Lk Li K0. split; [repeat split; assumption|]. auto. Qed.
(** every list of stretches is that of a transport *)
Fixpoint breaking (l : list bytes) : src := match l with [] => [] | [b] => source b | b :: r => source b ++ RErr :: breaking r end.
Lemma breaking_stretches l : l <> [] -> stretches (breaking l) = l.
Proof.
  induction l as [|b [|c l] IH]; intros N; [congruence| |].
  - cbn [breaking]. rewrite clean_stretches by apply source_clean. rewrite source_stream. reflexivity.
  - change (breaking (b :: c :: l)) with (source b ++ RErr :: breaking (c :: l)).
    assert (L : like b (RErr :: breaking (c :: l)) (source b ++ RErr :: breaking (c :: l))) by (exists (source b); split; [apply source_clean|]; split; [apply source_stream|reflexivity]).
    destruct (like_stretches _ _ _ _ (or_introl eq_refl) L) as (E & _). rewrite E. cbn [stretches tl]. rewrite IH by discriminate. reflexivity.
Qed.
Lemma stretches_ne s : stretches s <> []. Proof. destruct (stretches_cons s) as (l & ->). discriminate. Qed.
Theorem catches_iff m r key iv k pend x k' pend' l' : forall l, placed m r key iv k pend l -> k + zlen (concat l) < 2 ^ 64 ->
  (catches key iv k pend l x k' pend' l' <-> exists r', read_application_data m r = (x, r') /\ placed m r' key iv k' pend' l').
Proof.
  intros l P Room. split; [intros C; eapply catches_sound; eassumption|]. intros (r' & E & P'). pose proof P as ((_ & _ & _ & Lk & Li & K0) & _ & S).
  destruct (catches_total key iv k pend l Lk Li ltac:(rewrite <- S; apply stretches_ne) K0 Room) as (y & k2 & p2 & l2 & C).
  destruct (catches_sound _ _ _ _ _ _ _ _ _ _ C _ P Room) as (r2 & E2 & P2). rewrite E in E2. apply pair_equal_spec in E2 as [<- <-].
  destruct (placed_once _ _ _ _ _ _ _ _ _ _ P' P2) as (-> & -> & ->). exact C.
Qed.
Theorem catches_one key iv k pend l : length key = 32%nat -> length iv = 12%nat -> l <> [] -> 0 <= k -> k + zlen (concat l) < 2 ^ 64 ->
  exists x k' pend' l', catches key iv k pend l x k' pend' l' /\
    forall y k2 pend2 l2, catches key iv k pend l y k2 pend2 l2 -> y = x /\ k2 = k' /\ pend2 = pend' /\ l2 = l'.
Proof.
  intros Lk Li Nl K0 Room. destruct (catches_total key iv k pend l Lk Li Nl K0 Room) as (x & k' & p' & l' & C). exists x, k', p', l'. split; [exact C|].
  intros y k2 p2 l2 C2. pose proof (some_placed Release (breaking l) key iv k pend Lk Li K0) as P. rewrite breaking_stretches in P by exact Nl.
  destruct (catches_sound _ _ _ _ _ _ _ _ _ _ C _ P Room) as (r1 & E1 & P1). destruct (catches_sound _ _ _ _ _ _ _ _ _ _ C2 _ P Room) as (r2 & E2 & P2).
  rewrite E1 in E2. apply pair_equal_spec in E2 as [<- <-]. destruct (placed_once _ _ _ _ _ _ _ _ _ _ P2 P1) as (-> & -> & ->). auto.
Qed.

(** ** One call of [read] *)
Lemma hauls_rd m key iv n buf k pend bs x buf' k' pend' bs' : hauls key iv n buf k pend bs x buf' k' pend' bs' -> forall len done c, (length done + n)%nat = len ->
  standing m c key iv buf k pend bs -> k + zlen (concat bs) < 2 ^ 64 ->
  exists c', rd m len done c (match x with Ok l => Ok (done ++ l) | o => o end) c' /\ standing m c' key iv buf' k' pend' bs' /\ c_writer c' = c_writer c /\ c_rng c' = c_rng c.
Proof.
  assert (Start : forall buf len done c, c_buf c = buf -> (length done + length buf < len)%nat -> forall x c', rd m len (done ++ buf) (with_buf c (c_reader c) []) x c' -> rd m len done c x c').
  { intros b len done c B L x0 c' R. destruct b as [|b bs0]; [rewrite app_nil_r in R; destruct c; cbn in *; subst; exact R|].
    apply Rd_copy; [cbn in L; lia|rewrite B; discriminate|]. rewrite B, firstn_all2, skipn_all2 by (cbn in *; lia). exact R. }
  induction 1 as [n buf k pend bs L|n buf k pend bs d k1 pend1 bs1 x buf' k' pend' bs' L R F IH|n buf k pend bs e k1 pend1 bs1 L R|n buf k pend bs k1 pend1 bs1 L R|n buf k pend bs d k1 pend1 bs1 buf' k' pend' bs' L R F IH];
    intros len done c Hl (H & B) Room.
  - destruct n as [|n].
    + exists c. rewrite app_nil_r. split; [apply Rd_full; lia|]. split; [split; [exact H|exact B]|auto].
    + exists (with_buf c (c_reader c) (skipn (S n) buf)). split; [|split; [split; [exact H|reflexivity]|auto]].
      apply Rd_copy; [lia|rewrite B; intros ->; cbn in L; lia|]. replace (len - length done)%nat with (S n) by lia. rewrite B. apply Rd_full. rewrite app_length, firstn_length. lia.
  - destruct (catches_sound m _ _ _ _ _ _ _ _ _ R _ H Room) as (r' & A & H'). destruct (catches_shorter _ _ _ _ _ _ _ _ _ R) as (_ & Rm & _).
    destruct (IH len (done ++ buf) (with_buf c r' d)) as (c' & Q & Hc & W & G); [rewrite app_length; lia|split; [exact H'|reflexivity]|lia|].
    exists c'. rewrite app_assoc. split; [|split; [exact Hc|auto]]. apply (Start buf); [exact B|lia|].
    eapply Rd_data; [rewrite app_length; lia|reflexivity|exact A|]. destruct d as [|b d]; [rewrite firstn_nil, skipn_nil, app_nil_r; exact Q|].
    inversion Q; subst; try (exfalso; rewrite app_length in *; lia); try (exfalso; cbn in *; congruence); try assumption.
  - destruct (catches_sound m _ _ _ _ _ _ _ _ _ R _ H Room) as (r' & A & H').
    exists (with_buf c r' []). split; [|split; [split; [exact H'|reflexivity]|auto]]. apply (Start buf); [exact B|lia|].
    eapply (Rd_err m len (done ++ buf) (with_buf c (c_reader c) [])); [rewrite app_length; lia|reflexivity|exact A].
  - destruct (catches_sound m _ _ _ _ _ _ _ _ _ R _ H Room) as (r' & A & H').
    exists (with_buf c r' []). split; [|split; [split; [exact H'|reflexivity]|auto]]. apply (Start buf); [exact B|lia|].
    eapply (Rd_panic m len (done ++ buf) (with_buf c (c_reader c) [])); [rewrite app_length; lia|reflexivity|exact A].
  - destruct (catches_sound m _ _ _ _ _ _ _ _ _ R _ H Room) as (r' & A & H'). destruct (catches_shorter _ _ _ _ _ _ _ _ _ R) as (_ & Rm & _).
    destruct (IH len (done ++ buf) (with_buf c r' d)) as (c' & Q & Hc & W & G); [rewrite app_length; lia|split; [exact H'|reflexivity]|lia|].
    exists c'. split; [|split; [exact Hc|auto]]. apply (Start buf); [exact B|lia|].
    eapply Rd_data; [rewrite app_length; lia|reflexivity|exact A|]. destruct d as [|b d]; [rewrite firstn_nil, skipn_nil, app_nil_r; exact Q|].
    inversion Q; subst; try (exfalso; rewrite app_length in *; lia); try (exfalso; cbn in *; congruence); try assumption.
Qed.
Lemma hauls_sound m key iv n buf k pend bs x buf' k' pend' bs' : hauls key iv n buf k pend bs x buf' k' pend' bs' -> forall c,
  standing m c key iv buf k pend bs -> k + zlen (concat bs) < 2 ^ 64 ->
  exists c', client_read m n c = (x, c') /\ standing m c' key iv buf' k' pend' bs' /\ c_writer c' = c_writer c /\ c_rng c' = c_rng c.
Proof.
  intros F c H Room. destruct (hauls_rd m _ _ _ _ _ _ _ _ _ _ _ _ F n [] c eq_refl H Room) as (c' & R & Q). exists c'. split; [|exact Q].
  apply rd_read in R. rewrite R. destruct x; reflexivity.
Qed.
Lemma hauls_room key iv n buf k pend bs x buf' k' pend' bs' : hauls key iv n buf k pend bs x buf' k' pend' bs' -> k' + zlen (concat bs') <= k + zlen (concat bs) /\ ((exists d, x = Ok d) \/ x = Panic).
Proof.
  induction 1 as [n buf k pend bs L|n buf k pend bs d k1 pend1 bs1 x buf' k' pend' bs' L R F IH|n buf k pend bs e k1 pend1 bs1 L R|n buf k pend bs k1 pend1 bs1 L R|n buf k pend bs d k1 pend1 bs1 buf' k' pend' bs' L R F IH]; split; eauto; try lia;
    destruct (catches_shorter _ _ _ _ _ _ _ _ _ R) as (_ & Rm & _); lia.
Qed.
Lemma hauls_total key iv : length key = 32%nat -> length iv = 12%nat -> forall j n buf k pend bs, (length (concat bs) < j)%nat -> bs <> [] -> 0 <= k -> k + zlen (concat bs) < 2 ^ 64 ->
  exists x buf' k' pend' bs', hauls key iv n buf k pend bs x buf' k' pend' bs'.
Proof.
  intros Lk Li j. induction j as [|j IH]; intros n buf k pend bs Lj Nb K0 Room; [lia|].
  destruct (Nat.leb_spec n (length buf)) as [L|L]; [exists (Ok (firstn n buf)), (skipn n buf), k, pend, bs; apply U_enough; exact L|].
  destruct (catches_total key iv k pend bs Lk Li Nb K0 Room) as (x & k1 & pend1 & bs1 & R).
  destruct (catches_shorter _ _ _ _ _ _ _ _ _ R) as (R1 & R2 & R3 & R4 & R5).
  destruct x as [d|e| |]; [|exists (Ok buf), [], k1, pend1, bs1; eapply U_stop; eassumption|exists Panic, [], k1, pend1, bs1; apply U_panic; assumption|congruence].
  destruct (IH (n - length buf)%nat d k1 pend1 bs1) as (x & buf' & k' & pend' & bs' & F); [specialize (R3 d eq_refl); lia|exact R4|lia|lia|].
  destruct (proj2 (hauls_room _ _ _ _ _ _ _ _ _ _ _ _ F)) as [(l & ->)| -> ].
  - exists (Ok (buf ++ l)), buf', k', pend', bs'. eapply U_data; eassumption.
  - exists Panic, buf', k', pend', bs'. eapply U_panic_later; eassumption.
Qed.
Lemma standing_once m c key iv buf k pend l buf' k' pend' l' : standing m c key iv buf k pend l -> standing m c key iv buf' k' pend' l' -> buf = buf' /\ k = k' /\ pend = pend' /\ l = l'.
Proof. intros (A & B) (A' & B'). destruct (placed_once _ _ _ _ _ _ _ _ _ _ A A') as (-> & -> & ->). rewrite <- B, <- B'. auto. Qed.
Theorem hauls_iff m c key iv n buf k pend x buf' k' pend' bs' : forall bs, standing m c key iv buf k pend bs -> k + zlen (concat bs) < 2 ^ 64 ->
  (hauls key iv n buf k pend bs x buf' k' pend' bs' <-> exists c', client_read m n c = (x, c') /\ standing m c' key iv buf' k' pend' bs').
Proof.
  intros bs H Room. split.
  - intros R. destruct (hauls_sound m _ _ _ _ _ _ _ _ _ _ _ _ R c H Room) as (c' & A & B & _). exists c'. auto.
  - intros (c' & E & H'). pose proof H as (((_ & _ & _ & Lk & Li & K0) & _ & St) & _).
    destruct (hauls_total key iv Lk Li (S (length (concat bs))) n buf k pend bs ltac:(lia) ltac:(rewrite <- St; apply stretches_ne) K0 Room) as (y & buf2 & k2 & pend2 & bs2 & R).
    destruct (hauls_sound m _ _ _ _ _ _ _ _ _ _ _ _ R c H Room) as (c2 & A & B & _). rewrite E in A. apply pair_equal_spec in A as [<- <-].
    destruct (standing_once _ _ _ _ _ _ _ _ _ _ _ _ H' B) as (-> & -> & -> & ->). exact R.
Qed.
Lemma hauls_one key iv n buf k pend bs : length key = 32%nat -> length iv = 12%nat -> bs <> [] -> 0 <= k -> k + zlen (concat bs) < 2 ^ 64 ->
  exists x buf' k' pend' bs', hauls key iv n buf k pend bs x buf' k' pend' bs' /\
    forall y buf2 k2 pend2 bs2, hauls key iv n buf k pend bs y buf2 k2 pend2 bs2 -> y = x /\ buf2 = buf' /\ k2 = k' /\ pend2 = pend' /\ bs2 = bs'.
Proof.
  intros Lk Li Nb K0 Room. destruct (hauls_total key iv Lk Li (S (length (concat bs))) n buf k pend bs ltac:(lia) Nb K0 Room) as (x & buf' & k' & pend' & bs' & R).
  exists x, buf', k', pend', bs'. split; [exact R|]. intros y buf2 k2 pend2 bs2 R2.
  pose proof (some_placed Release (breaking bs) key iv k pend Lk Li K0) as P. rewrite breaking_stretches in P by exact Nb.
  assert (H : standing Release (Client (Reader (breaking bs) (Some (new_decryptor Release key)) k pend (Some iv)) (writer_new []) [] buf) key iv buf k pend bs) by (split; [exact P|reflexivity]).
  destruct (hauls_sound _ _ _ _ _ _ _ _ _ _ _ _ _ R _ H Room) as (r1 & A1 & B1 & _). destruct (hauls_sound _ _ _ _ _ _ _ _ _ _ _ _ _ R2 _ H Room) as (r2 & A2 & B2 & _).
  rewrite A1 in A2. apply pair_equal_spec in A2 as [<- <-]. destruct (standing_once _ _ _ _ _ _ _ _ _ _ _ _ B2 B1) as (-> & -> & -> & ->). auto.
Qed.

(** ** An application at work *)
Definition speaks (m : mode) (c : client) (ks ivs kc ivc buf : bytes) (k : Z) (pend : bytes) (bs : list bytes) (j : Z) : Prop :=
  standing m c ks ivs buf k pend bs /\ k + zlen (concat bs) < 2 ^ 64 /\ keyed_w m (c_writer c) kc ivc j /\ healthy (c_writer c).
Lemma standing_same m c c' key iv buf k pend bs : c_reader c' = c_reader c -> c_buf c' = c_buf c -> standing m c key iv buf k pend bs -> standing m c' key iv buf k pend bs.
Proof. intros R B H. unfold standing in *. rewrite R, B. exact H. Qed.
Lemma career_iff m ks ivs kc ivc q : forall c buf k pend bs j l out, speaks m c ks ivs kc ivc buf k pend bs j -> j + spent q l < 2 ^ 64 ->
  ((exists c', use m q c = (l, c') /\ w_out (c_writer c') = w_out (c_writer c) ++ out) <-> career ks ivs kc ivc q buf k pend bs j l out).
Proof.
  induction q as [|o next IH]; intros c buf k pend bs j l out T Sp.
  - cbn [use]. split.
    + intros (c' & E & O). apply pair_equal_spec in E as [<- <-]. rewrite <- (app_nil_r (w_out (c_writer c))) in O at 1. apply app_inv_head in O as <-. constructor.
    + intros L. inversion L; subst. exists c. rewrite app_nil_r. auto.
  - pose proof T as (Ha & Rm & Kw & He). destruct o as [n|d|].
    + pose proof Ha as (((_ & _ & _ & Lk & Li & K0) & _ & St) & _). assert (Nb : bs <> []) by (rewrite <- St; apply stretches_ne).
      destruct (hauls_one ks ivs n buf k pend bs Lk Li Nb K0 Rm) as (x & buf' & k' & pend' & bs' & F & U).
      destruct (hauls_sound m _ _ _ _ _ _ _ _ _ _ _ _ F c Ha Rm) as (c1 & E1 & H1 & W1 & G1). destruct (hauls_room _ _ _ _ _ _ _ _ _ _ _ _ F) as (R1 & _).
      cbn [use do_call]. rewrite E1. assert (Cx : (exists e, x = Ok e) \/ x = Panic) by (destruct F; eauto). destruct Cx as [(e & ->)| -> ]; cbn [crashed].
      * assert (T1 : speaks m c1 ks ivs kc ivc buf' k' pend' bs' j) by (split; [exact H1|]; split; [lia|]; rewrite W1; auto).
        split.
        -- intros (c' & E & O). destruct (use m (next (Got (Ok e))) c1) as [l1 c2] eqn:E2. apply pair_equal_spec in E as [<- <-]. eapply C_read; [exact F|].
           cbn [spent call_cost] in Sp. apply (IH (Got (Ok e)) c1 _ _ _ _ _ _ _ T1); [lia|]. exists c2. rewrite W1. auto.
        -- intros L. inversion L as [|n0 next0 ? ? ? ? ? d0 b2 k2 p2 s2 l0 ? F2 L2|n0 next0 ? ? ? ? ? b2 k2 p2 s2 F2| |]; subst; destruct (U _ _ _ _ _ F2) as (X & -> & -> & -> & ->); [|discriminate X].
           apply Ok_inj in X as ->. cbn [spent call_cost] in Sp. destruct (proj2 (IH (Got (Ok e)) c1 _ _ _ _ j l0 out T1 ltac:(lia)) L2) as (c2 & E2 & O2). rewrite E2. exists c2. rewrite <- W1. auto.
      * split.
        -- intros (c' & E & O). apply pair_equal_spec in E as [<- <-]. rewrite W1, <- (app_nil_r (w_out (c_writer c))) in O at 1. apply app_inv_head in O as <-. eapply C_panic, F.
        -- intros L. inversion L as [|n0 next0 ? ? ? ? ? d0 b2 k2 p2 s2 l0 ? F2 L2|n0 next0 ? ? ? ? ? b2 k2 p2 s2 F2| |]; subst; destruct (U _ _ _ _ _ F2) as (X & _); [discriminate X|].
           exists c1. rewrite W1, app_nil_r. auto.
    + assert (B : forall a l0, l = a :: l0 -> j + zlen d + spent (next a) l0 < 2 ^ 64) by (intros a l0 ->; cbn [spent call_cost] in Sp; lia).
      assert (Z : l <> [] -> j + zlen d < 2 ^ 64) by (destruct l as [|a l0]; [congruence|]; intros _; specialize (B a l0 eq_refl); pose proof (spent_nonneg (next a) l0); lia).
      cbn [use do_call]. split.
      * intros (c' & E & O). destruct (client_write m d c) as [y c0] eqn:Ew.
        assert (Nl : l <> []) by (destruct (crashed (Wrote y)); [|destruct (use m (next (Wrote y)) c0)]; apply pair_equal_spec in E as [<- _]; discriminate).
        destruct (write_cutup m kc ivc j d c Kw He (Z Nl)) as (c1 & E1 & Rr & Rb & H1 & O1 & K1). rewrite Ew in E1. apply pair_equal_spec in E1 as [-> ->]. cbn [crashed] in E.
        destruct (use m (next (Wrote (Ok (zlen d)))) c1) as [l1 c2] eqn:E2. apply pair_equal_spec in E as [<- <-]. specialize (B _ _ eq_refl).
        destruct (fragments_legal d) as (_ & _ & Lf). unfold cutup in O1, K1. rewrite sealed_items_map in O1. replace (zlen (map (pair ApplicationDataTy) (chunks (Z.to_nat RECORD_MAX_LEN) d))) with (zlen (chunks (Z.to_nat RECORD_MAX_LEN) d)) in K1 by (unfold zlen; rewrite map_length; reflexivity).
        cbv zeta in Lf. set (fs := chunks (Z.to_nat RECORD_MAX_LEN) d) in *.
        destruct (use_out m (next (Wrote (Ok (zlen d)))) c1) as (more & Om). rewrite E2 in Om. cbn [snd] in Om.
        rewrite Om, O1, <- app_assoc in O. apply app_inv_head in O as <-. apply C_write; [apply parcels_iff; reflexivity|].
        apply (IH _ c1); [|lia|exists c2; split; [exact E2|exact Om]]. split; [eapply standing_same; eassumption|]. auto.
      * intros L. inversion L as [| | |d0 next0 ? ? ? ? ? fs l0 out0 P L2|]; subst. apply parcels_iff in P as ->. specialize (B _ _ eq_refl).
        destruct (write_cutup m kc ivc j d c Kw He (Z ltac:(discriminate))) as (c1 & E1 & Rr & Rb & H1 & O1 & K1). rewrite E1. cbn [crashed].
        destruct (fragments_legal d) as (_ & _ & Lf). unfold cutup in O1, K1. rewrite sealed_items_map in O1. replace (zlen (map (pair ApplicationDataTy) (chunks (Z.to_nat RECORD_MAX_LEN) d))) with (zlen (chunks (Z.to_nat RECORD_MAX_LEN) d)) in K1 by (unfold zlen; rewrite map_length; reflexivity).
        cbv zeta in Lf. set (fs := chunks (Z.to_nat RECORD_MAX_LEN) d) in *.
        destruct (proj2 (IH (Wrote (Ok (zlen d))) c1 buf k pend bs (j + zlen fs) l0 out0 ltac:(split; [eapply standing_same; eassumption|auto]) ltac:(lia)) L2) as (c2 & E2 & O2).
        rewrite E2. exists c2. split; [reflexivity|]. rewrite O2, O1, <- app_assoc. reflexivity.
    + assert (B : forall a l0, l = a :: l0 -> j + 1 + spent (next a) l0 < 2 ^ 64) by (intros a l0 ->; cbn [spent call_cost] in Sp; lia).
      assert (Z : l <> [] -> j + 1 < 2 ^ 64) by (destruct l as [|a l0]; [congruence|]; intros _; specialize (B a l0 eq_refl); pose proof (spent_nonneg (next a) l0); lia).
      cbn [use do_call]. split.
      * intros (c' & E & O). destruct (client_close m c) as [y c0] eqn:Ew.
        assert (Nl : l <> []) by (destruct (crashed (Closed y)); [|destruct (use m (next (Closed y)) c0)]; apply pair_equal_spec in E as [<- _]; discriminate).
        destruct (close_writes _ _ _ _ Ew) as [Rr Rb]. destruct (close_app m kc ivc j c Kw (Z Nl)) as (y1 & c1 & E1 & H1 & [(-> & O1 & K1)|(_ & Hn)]); [|contradiction]. rewrite Ew in E1. apply pair_equal_spec in E1 as [-> ->]. cbn [crashed] in E.
        destruct (use m (next (Closed (Ok tt))) c1) as [l1 c2] eqn:E2. apply pair_equal_spec in E as [<- <-]. specialize (B _ _ eq_refl).
        destruct (use_out m (next (Closed (Ok tt))) c1) as (more & Om). rewrite E2 in Om. cbn [snd] in Om.
        rewrite Om, O1, <- app_assoc in O. apply app_inv_head in O as <-. apply C_close.
        apply (IH _ c1); [|lia|exists c2; split; [exact E2|exact Om]]. split; [eapply standing_same; eassumption|]. auto.
      * intros L. inversion L as [| | | |next0 ? ? ? ? ? l0 out0 L2]; subst. specialize (B _ _ eq_refl).
        destruct (close_app m kc ivc j c Kw (Z ltac:(discriminate))) as (y1 & c1 & E1 & H1 & [(-> & O1 & K1)|(_ & Hn)]); [|contradiction]. rewrite E1. cbn [crashed].
        destruct (close_writes _ _ _ _ E1) as [Rr Rb].
        destruct (proj2 (IH (Closed (Ok tt)) c1 buf k pend bs (j + 1) l0 out0 ltac:(split; [eapply standing_same; eassumption|auto]) ltac:(lia)) L2) as (c2 & E2 & O2).
        rewrite E2. exists c2. split; [reflexivity|]. rewrite O2, O1, <- app_assoc. reflexivity.
Qed.


(** ** Construction *)
Lemma new_first m s p g : exists x c0 s', client_new m (source (stream s)) p g = (x, c0) /\ client_new m s p g = (x, csrc c0 s') /\
  (x = Ok tt -> stretches s' = stream (r_src (c_reader c0)) :: tl (stretches s)).
Proof.
  destruct (stretch_like s) as (t & t' & Ht & L). unfold client_new. rewrite (init_src (source (stream s))), (init_src s).
  destruct (new_causal m p g (stream s)) as [(x & c1 & b1 & _ & D)|(c1 & N & W & _)].
  - destruct (D _ _ (canon (stream s))) as (s0 & E0 & L0). destruct (D _ _ L) as (s1 & E1 & L1). exists x, (csrc c1 s0), s1. split; [exact E0|]. split; [exact E1|]. intros _.
    destruct (like_stretches _ _ _ _ Ht L) as (-> & _). destruct (like_stretches _ _ _ _ Ht L1) as (-> & _). cbn [csrc c_reader set_src r_src tl]. f_equal.
    destruct L0 as (a & C & Sa & ->). rewrite app_nil_r. symmetry. exact Sa.
  - exists (Err IoFailure), (csrc c1 []), t'. split; [exact (W [] [] _ (or_intror (or_intror (conj eq_refl eq_refl))) (canon _))|]. split; [exact (W t t' s Ht L)|discriminate].
Qed.
Theorem lifespan_iff m q s p g x l out : healthy (writer_new p) -> zlen (concat (stretches s)) + 1 < 2 ^ 64 -> 1 + spent q l < 2 ^ 64 ->
  ((exists c, sitting m q s p g = (x, l, c) /\ w_out (c_writer c) = out) <-> lifespan m g q (stretches s) x l out).
Proof.
  intros H R Sp. destruct (stretches_cons s) as (more & Es). rewrite Es in R |- *. cbn [concat] in R. rewrite zlen_app in R. pose proof (zlen_nonneg (concat more)).
  set (b := stream s) in *. pose proof (source_clean b) as C. pose proof (source_stream b) as Sb. assert (Rb : zlen (stream (source b)) + 1 < 2 ^ 64) by (rewrite Sb; lia).
  assert (Rc : zlen (stream (source b)) < 2 ^ 64) by lia.
  destruct (new_first m s p g) as (y & c0 & s' & E0 & E1 & St). fold b in E0. rewrite Es in St. cbn [tl] in St.
  assert (T : forall ss n extra rest, connecting m g ss b n extra rest -> y = Ok tt /\ w_out (c_writer c0) = stage_out (Complete ss) /\
    speaks m (csrc c0 s') (k_server (s_keys ss)) (iv_server (s_keys ss)) (k_client (s_keys ss)) (iv_client (s_keys ss)) [] n extra (rest :: more) 1).
  { intros ss n extra rest K. rewrite <- Sb in K. destruct (connected_talks m (source b) p g ss n extra rest H C Rc K) as (c1 & E2 & O & T). rewrite E0 in E2. apply pair_equal_spec in E2 as [-> <-].
    split; [reflexivity|]. split; [exact O|]. destruct T as (((Kd & _ & B & Sr) & Bu) & Rm & Kw & He). pose proof (connecting_len _ _ _ _ _ _ _ K) as Lc. rewrite Sb in Lc.
    split; [split; [split; [exact Kd|]; split; [exact B|]; cbn [csrc c_reader set_src r_src]; rewrite (St eq_refl), Sr; reflexivity|exact Bu]|].
    split; [cbn [concat]; rewrite zlen_app; lia|]. auto. }
  unfold sitting. rewrite E1. split.
  - intros (c & E & <-). destruct y as [[]|e| |].
    1: { destruct (connects_stream m (source b) p g c0 H C Rb E0) as (ss & n & extra & rest & K). rewrite Sb in K. destruct (T _ _ _ _ K) as (_ & O & Tk).
         destruct (use m q (csrc c0 s')) as [l1 c2] eqn:Eu. apply pair_equal_spec in E as [E <-]. apply pair_equal_spec in E as [<- <-].
         destruct (use_out m q (csrc c0 s')) as (out & Om). rewrite Eu in Om. cbn [snd] in Om. change (c_writer (csrc c0 s')) with (c_writer c0) in Om. rewrite Om, O. eapply Span_led; [exact K|]. eapply career_iff; [exact Tk|exact Sp|].
         exists c2. split; [exact Eu|exact Om]. }
    all: apply pair_equal_spec in E as [E <-]; apply pair_equal_spec in E as [<- <-]; change (c_writer (csrc c0 s')) with (c_writer c0).
    all: match type of E0 with _ = (?y, _) => destruct (proj1 (building_iff m (source b) p g y (w_out (c_writer c0)) H C Rc)) as (st & B & ->); [eauto|] end; rewrite Sb in B; apply Span_refused; [discriminate|exact B].
  - intros Lt. revert Sp. remember (b :: more) as bs eqn:Eb. destruct Lt as [b0 more0 x0 st N B|ss b0 more0 n extra rest l0 o K L]; injection Eb as -> ->; intros Sp.
    + rewrite <- Sb in B. destruct (proj2 (building_iff m (source b) p g x0 (all_sent x0 st) H C Rc)) as (c & E & O); [eauto|]. rewrite E0 in E. apply pair_equal_spec in E as [-> ->].
      exists (csrc c s'). split; [|exact O]. destruct x0 as [[]|e| |]; [congruence|reflexivity..].
    + destruct (T _ _ _ _ K) as (-> & O & Tk). destruct (proj2 (career_iff m _ _ _ _ q _ _ _ _ _ 1 l0 o Tk Sp) L) as (c2 & E2 & O2). rewrite E2. exists c2. rewrite O2. change (c_writer (csrc c0 s')) with (c_writer c0). rewrite O. auto.
Qed.

(** ** What is lost and what is not *)
Lemma starves_receive key iv k pend b k' pend' : starves key iv k pend b k' pend' -> receive key iv k pend b (Err IoFailure) k' pend' [].
Proof. induction 1; [apply V_end; assumption|eapply V_more; eassumption]. Qed.
Theorem catches_clean key iv k pend b x k' pend' b' : length key = 32%nat -> length iv = 12%nat -> 0 <= k -> k + zlen b < 2 ^ 64 ->
  (catches key iv k pend [b] x k' pend' [b'] <-> receive key iv k pend b x k' pend' b').
Proof.
  intros Lk Li K0 Room. split.
  - intros C. inversion C as [? ? ? ? ? ? ? ? R|? ? ? ? ? ? St E]; subst; [exact R|]. apply starves_receive. assumption.
  - intros R. destruct (receive_placed _ _ _ _ _ _ _ _ _ R) as [(St & -> & ->)|Rt]; [exact (H_out _ _ _ _ _ [] _ _ St)|].
    apply H_here; [exact R|]. intros k2 p2 St. exact (not_both key iv k pend b x k' pend' b' k2 p2 Lk Li K0 Room St Rt).
Qed.
Lemma answers_here key iv k pend b l x k' pend' b' : length key = 32%nat -> length iv = 12%nat -> 0 <= k -> k + zlen b < 2 ^ 64 ->
  receive key iv k pend b x k' pend' b' -> x <> Err IoFailure -> catches key iv k pend (b :: l) x k' pend' (b' :: l).
Proof.
  intros Lk Li K0 Room R N. destruct (receive_placed _ _ _ _ _ _ _ _ _ R) as [(_ & X & _)|Rt]; [congruence|].
  apply H_here; [exact R|]. intros k2 p2 St. exact (not_both key iv k pend b x k' pend' b' k2 p2 Lk Li K0 Room St Rt).
Qed.
Theorem cut_lost m r key iv k pend b l : placed m r key iv k pend (b :: l) -> k + zlen b < 2 ^ 64 -> incomplete pend -> cut_record b ->
  exists r', read_application_data m r = (Err IoFailure, r') /\ placed m r' key iv k pend (onward l).
Proof. intros P Room N Cu. exact (starves_sound m key iv k pend b k pend (S_end key iv k pend b N Cu) r l P Room). Qed.
Theorem boundary_kept m r key iv k pend b l : placed m r key iv k pend ([] :: b :: l) -> k < 2 ^ 64 -> incomplete pend ->
  exists r', read_application_data m r = (Err IoFailure, r') /\ placed m r' key iv k pend (b :: l).
Proof. intros P K N. eapply (cut_lost m r key iv k pend [] (b :: l) P); [change (zlen (@nil byte)) with 0; lia|exact N|]. left. reflexivity. Qed.
Theorem pause_read m c key iv k pend b l n : standing m c key iv [] k pend ([] :: b :: l) -> k < 2 ^ 64 -> incomplete pend -> (0 < n)%nat ->
  exists c', client_read m n c = (Ok [], c') /\ standing m c' key iv [] k pend (b :: l).
Proof.
  intros (P & B) K N Ln. destruct (boundary_kept _ _ _ _ _ _ _ _ P K N) as (r' & E & P'). exists (with_buf c r' []). split; [|split; [exact P'|reflexivity]].
  apply rd_read. eapply Rd_err; [cbn; lia|exact B|exact E].
Qed.
(** a record cut before its last byte *)
Lemma last_cut t maj min f z : zlen (f ++ [z]) <= 18432 -> exists b, wire t maj min (f ++ [z]) = b ++ [z] /\ cut_record b.
Proof.
  intros L. exists (z2b (rfc_content_type t) :: maj :: min :: be 2 (zlen (f ++ [z])) ++ f). split.
  - unfold wire. cbn [app]. rewrite <- app_assoc. reflexivity.
  - right. exists t. eexists. split; [reflexivity|]. right. exists maj, min, (zlen (f ++ [z])), f. split; [reflexivity|]. rewrite zlen_app in *. change (zlen [z]) with 1 in *. lia.
Qed.
Lemma one_byte key iv k pend z : incomplete pend -> exists e, receive key iv k pend [z] (Err e) k pend [].
Proof.
  intros N. destruct (beginnings [z]) as [Cu|[(b & rest & E & T)|[(t & maj & min & j & rest & E & J)|(t & maj & min & f & rest & E & L)]]].
  - exists IoFailure. apply V_end; assumption.
  - injection E as <- <-. exists UnexpectedMessage. apply V_type; assumption.
  - discriminate E.
  - unfold wire in E. discriminate E.
Qed.
Lemma nothing_again m c key iv k pend n : standing m c key iv [] k pend [[]] -> k < 2 ^ 64 -> incomplete pend -> (0 < n)%nat -> forall j, Forall (eq (Ok [])) (tries m n j c).
Proof.
  intros H K N Ln j. revert c H. induction j as [|j IH]; intros c (P & B); [constructor|]. cbn [tries].
  destruct (cut_lost m _ key iv k pend [] [] P ltac:(change (zlen (@nil byte)) with 0; lia) N (or_introl eq_refl)) as (r' & E & P').
  rewrite (rd_read m n c (Ok []) (with_buf c r' [])) by (eapply Rd_err; [cbn; lia|exact B|exact E]). constructor; [reflexivity|]. apply IH. split; [exact P'|reflexivity].
Qed.
Theorem never_again m c key iv k pend t maj min f z n : standing m c key iv [] k pend [removelast (wire t maj min (f ++ [z])); [z]] -> zlen (f ++ [z]) <= 18432 -> k + zlen f + 16 < 2 ^ 64 -> incomplete pend -> (0 < n)%nat ->
  forall j, Forall (eq (Ok [])) (tries m n j c).
Proof.
  intros (P & B) L K N Ln j. destruct (last_cut t maj min f z L) as (b & E & Cu). rewrite E, removelast_last in P. pose proof (zlen_nonneg f).
  assert (Lb : zlen b = 5 + zlen f) by (pose proof (long_wire t maj min (f ++ [z]) []) as X; rewrite app_nil_r, E, !zlen_app in X; change (zlen [z]) with 1 in X; change (zlen (@nil byte)) with 0 in X; lia).
  destruct j as [|[|j]]; [constructor| |].
  - destruct (cut_lost m _ key iv k pend b [[z]] P ltac:(lia) N Cu) as (r' & E1 & _). cbn [tries]. rewrite (rd_read m n c (Ok []) (with_buf c r' [])) by (eapply Rd_err; [cbn; lia|exact B|exact E1]). repeat constructor.
  - destruct (cut_lost m _ key iv k pend b [[z]] P ltac:(lia) N Cu) as (r1 & E1 & P1). cbn [tries]. rewrite (rd_read m n c (Ok []) (with_buf c r1 [])) by (eapply Rd_err; [cbn; lia|exact B|exact E1]). constructor; [reflexivity|].
    cbn [onward] in P1. pose proof P1 as ((_ & _ & _ & Lk & Li & K0) & _).
    destruct (one_byte key iv k pend z N) as (e & R). apply (catches_clean key iv k pend [z] (Err e) k pend [] Lk Li K0 ltac:(change (zlen [z]) with 1; lia)) in R.
    destruct (catches_sound m _ _ _ _ _ _ _ _ _ R _ P1 ltac:(cbn [concat app]; change (zlen [z]) with 1; lia)) as (r2 & E2 & P2).
    cbn [tries]. rewrite (rd_read m n _ (Ok []) (with_buf (with_buf c r1 []) r2 [])) by (eapply Rd_err; [cbn; lia|reflexivity|exact E2]). constructor; [reflexivity|].
    apply (nothing_again m _ key iv k pend n); [split; [exact P2|reflexivity]|lia|exact N|exact Ln].
Qed.
Lemma whole_read m c key iv k pend d n : standing m c key iv [] k pend [sealed_record key iv k ApplicationDataTy d] -> k + zlen d + 32 < 2 ^ 64 -> incomplete pend -> zlen d <= 16384 -> (length d < n)%nat ->
  exists c', client_read m n c = (Ok d, c').
Proof.
  intros H Room N L Ln. pose proof H as (((_ & _ & _ & Lk & Li & K0) & _) & _).
  assert (R : receive key iv k pend (sealed_record key iv k ApplicationDataTy d ++ []) (Ok d) (k + 1) pend []).
  { apply (V_record key iv k pend ApplicationDataTy x03 x03 d); [exact N|reflexivity|exact L|constructor]. }
  rewrite app_nil_r in R. assert (Lr : zlen (sealed_record key iv k ApplicationDataTy d) = 21 + zlen d).
  { unfold zlen. rewrite P_Talk3.sealed_length. lia. }
  assert (C : catches key iv k pend [sealed_record key iv k ApplicationDataTy d] (Ok d) (k + 1) pend [[]]) by (eapply answers_here; try eassumption; [lia|discriminate]).
  assert (C2 : catches key iv (k + 1) pend [[]] (Err IoFailure) (k + 1) pend [[]]) by (apply (H_out key iv (k + 1) pend [] []); apply S_end; [exact N|left; reflexivity]).
  assert (F : hauls key iv n [] k pend [sealed_record key iv k ApplicationDataTy d] (Ok ([] ++ d)) [] (k + 1) pend [[]]).
  { eapply U_data; [cbn; lia|exact C|]. cbn [length]. rewrite Nat.sub_0_r. eapply U_stop; [exact Ln|exact C2]. }
  destruct (hauls_sound m _ _ _ _ _ _ _ _ _ _ _ _ F c H ltac:(cbn [concat]; rewrite app_nil_r; lia)) as (c' & E & _). exists c'. exact E.
Qed.

Lemma retry_fails : exists m n c c' b z d key iv k pend, standing m c key iv [] k pend [b ++ [z]] /\ standing m c' key iv [] k pend [b; [z]] /\ incomplete pend /\ d <> [] /\
  (exists c1, client_read m n c = (Ok d, c1)) /\ forall j, Forall (eq (Ok [])) (tries m n j c').
Proof.
  pose (key := repeat x00 32). pose (iv := repeat x00 12). pose (d := [x61; x62]).
  assert (I0 : incomplete []) by (apply none_iff; reflexivity).
  set (sd := aead_seal key (rfc_nonce iv 0) (rfc_ad 0 ApplicationDataTy x03 x03 (zlen d)) d). assert (Ls : zlen sd = 18) by (unfold sd; rewrite sealed_len; reflexivity).
  assert (Ns : sd <> []) by (intros X; rewrite X in Ls; discriminate Ls). destruct (exists_last Ns) as (f & z & Es).
  assert (Lf : zlen f = 17) by (rewrite Es, zlen_app in Ls; change (zlen [z]) with 1 in Ls; lia).
  destruct (last_cut ApplicationDataTy x03 x03 f z ltac:(rewrite <- Es, Ls; lia)) as (b & E & Cu).
  assert (Er : sealed_record key iv 0 ApplicationDataTy d = b ++ [z]) by (rewrite <- E, <- Es; reflexivity).
  pose (cl := fun l => Client (Reader (breaking l) (Some (new_decryptor Release key)) 0 [] (Some iv)) (writer_new []) [] []).
  assert (St : forall l, l <> [] -> standing Release (cl l) key iv [] 0 [] l).
  { intros l Nl. split; [|reflexivity]. pose proof (some_placed Release (breaking l) key iv 0 [] eq_refl eq_refl ltac:(lia)) as P. rewrite breaking_stretches in P by exact Nl. exact P. }
  exists Release, 10%nat, (cl [b ++ [z]]), (cl [b; [z]]), b, z, d, key, iv, 0, []. split; [apply St; discriminate|]. split; [apply St; discriminate|]. split; [exact I0|]. split; [discriminate|]. split.
  - apply (whole_read Release _ key iv 0 [] d 10); [rewrite Er; apply St; discriminate|change (zlen d) with 2; lia|exact I0|change (zlen d) with 2; lia|cbn; lia].
  - apply (never_again Release _ key iv 0 [] ApplicationDataTy x03 x03 f z 10); [rewrite E, removelast_last; apply St; discriminate|rewrite <- Es, Ls; lia|lia|exact I0|lia].
Qed.
(** a pause after the handshake: one read gives nothing, the next one the data *)
Definition patient : application := Do (Read 4) (fun _ => Do (Read 2) (fun _ => Quit)).
Lemma patient_run m : exists bs ss, lifespan m one_tape patient [bs; sealed_record (k_server (s_keys ss)) (iv_server (s_keys ss)) 2 ApplicationDataTy [x61; x62]] (Ok tt)
  [Got (Ok []); Got (Ok [x61; x62])] (stage_out (Complete ss)).
Proof.
  destruct (odd_run m) as (ss & q & A & Q & K). exists (odd_stream ss q), ss. rewrite <- (app_nil_r (stage_out (Complete ss))). eapply Span_led; [exact K|].
  assert (T : exists c, talks m c (k_server (s_keys ss)) (iv_server (s_keys ss)) (k_client (s_keys ss)) (iv_client (s_keys ss)) [] 2 [x63] [] 1).
  { assert (R : zlen (odd_stream ss q) < 2 ^ 64).
    { assert (Lq : zlen q = 12) by (pose proof (fin_shape ss) as Fs; rewrite Q in Fs; apply app_inv_head in Fs; subst q; unfold zlen, expected_server; rewrite verify_data_length; reflexivity).
      pose proof (odd_len ss q A Lq). lia. }
    destruct (connected_talks m (source (odd_stream ss q)) [] one_tape ss 2 [x63] [] ltac:(constructor) (source_clean _) ltac:(rewrite source_stream; exact R) ltac:(rewrite source_stream; exact K)) as (c & _ & _ & T). eauto. }
  destruct T as (c & (((_ & _ & _ & Lk & Li & _) & _) & _) & _).
  set (ks := k_server (s_keys ss)) in *. set (ivs := iv_server (s_keys ss)) in *.
  eapply C_read.
  - eapply (U_stop ks ivs 4 [] 2 [x63] _ IoFailure); [cbn; lia|]. apply H_out. apply S_end; [exact started_63|left; reflexivity].
  - eapply C_read; [|apply C_quit]. cbn [onward].
    eapply (U_data ks ivs 2 [] 2 [x63] _ [x61; x62] 3 [x63] [[]] [x61; x62]); [cbn; lia| |apply (U_enough ks ivs 2 [x61; x62]); cbn; lia].
    apply (answers_here ks ivs 2 [x63] _ [] (Ok [x61; x62]) 3 [x63] [] Lk Li ltac:(lia)); [unfold zlen; rewrite P_Talk3.sealed_length; cbn [length]; lia| |discriminate].
    rewrite <- (app_nil_r (sealed_record _ _ _ _ _)). apply (V_record ks ivs 2 [x63] ApplicationDataTy x03 x03 [x61; x62]); [exact started_63|reflexivity|cbv; discriminate|constructor].
Qed.
