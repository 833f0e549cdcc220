(** Proofs about the loops of [std] on any transport. *)
From Verif Require Import Spec_Loop P_Util P_Codec P_Client3 P_Client4 P_Accept P_Receive P_Build P_Std P_Life P_Broken.
From Coq Require Import ZifyBool ZifyNat ZifyN.
Local Open Scope list_scope.
Local Open Scope Z_scope.
#[local] Opaque SHA256 HMAC aead_seal aead_decrypt aead_encrypt compute_keys PRF nmul.

(** one call of [read], on any client that stands somewhere *)
Lemma read_stands m c key iv n buf k pend bs : standing m c key iv buf k pend bs -> k + zlen (concat bs) < 2 ^ 64 ->
  exists x buf' k' pend' bs' c', hauls key iv n buf k pend bs x buf' k' pend' bs' /\ client_read m n c = (x, c') /\ standing m c' key iv buf' k' pend' bs' /\ c_writer c' = c_writer c /\ c_rng c' = c_rng c /\
    k' + zlen (concat bs') < 2 ^ 64 /\ ((exists d, x = Ok d) \/ x = Panic).
Proof.
  intros H Room. pose proof H as (((_ & _ & _ & Lk & Li & K0) & _ & St) & _).
  destruct (hauls_total key iv Lk Li (S (length (concat bs))) n buf k pend bs ltac:(lia) ltac:(rewrite <- St; apply stretches_ne) K0 Room) as (x & buf' & k' & pend' & bs' & F).
  destruct (hauls_sound m _ _ _ _ _ _ _ _ _ _ _ _ F c H Room) as (c' & E & H' & W & G). destruct (hauls_room _ _ _ _ _ _ _ _ _ _ _ _ F) as (R & C).
  exists x, buf', k', pend', bs', c'. repeat (split; [assumption||lia|]). exact C.
Qed.

(** ** [read_exact] *)
Lemma fulfils_loop m key iv n done buf k pend bs x buf' k' pend' bs' : fulfils key iv n done buf k pend bs x buf' k' pend' bs' -> forall fuel c, (n <= fuel)%nat ->
  standing m c key iv buf k pend bs -> k + zlen (concat bs) < 2 ^ 64 ->
  exists c', read_exact_loop m fuel (length done + n) done c = (x, c') /\ standing m c' key iv buf' k' pend' bs' /\ c_writer c' = c_writer c /\ c_rng c' = c_rng c.
Proof.
  induction 1 as [done buf k pend bs|n done buf k pend bs buf' k' pend' bs' N F|n done buf k pend bs d buf1 k1 pend1 bs1 x buf' k' pend' bs' Nd F Q IH|n done buf k pend bs buf' k' pend' bs' N F]; intros fuel c Lf H Room.
  - exists c. split; [|auto]. destruct fuel; cbn [read_exact_loop]; rewrite Nat.add_0_r, Nat.ltb_irrefl; reflexivity.
  - destruct (hauls_sound m _ _ _ _ _ _ _ _ _ _ _ _ F c H Room) as (c' & E & H' & W & G). exists c'. split; [|auto]. destruct fuel as [|f]; [lia|]. cbn [read_exact_loop].
    destruct (Nat.ltb_spec (length done) (length done + n)); [|lia]. replace (length done + n - length done)%nat with n by lia. unfold mbind. rewrite E. reflexivity.
  - destruct (hauls_sound m _ _ _ _ _ _ _ _ _ _ _ _ F c H Room) as (c1 & E & H1 & W1 & G1). destruct (hauls_room _ _ _ _ _ _ _ _ _ _ _ _ F) as (R & _).
    pose proof (read_length _ _ _ _ _ E) as Ld. assert (Pd : (0 < length d)%nat) by (destruct d; [contradiction|cbn; lia]).
    destruct fuel as [|f]; [lia|]. destruct (IH f c1 ltac:(lia) H1 ltac:(lia)) as (c' & E' & H' & W' & G'). exists c'. split; [|rewrite W', G'; auto]. cbn [read_exact_loop].
    destruct (Nat.ltb_spec (length done) (length done + n)); [|lia]. replace (length done + n - length done)%nat with n by lia. unfold mbind. rewrite E.
    replace (length (done ++ d) + (n - length d))%nat with (length done + n)%nat in E' by (rewrite app_length; lia). destruct d; [contradiction|exact E'].
  - destruct (hauls_sound m _ _ _ _ _ _ _ _ _ _ _ _ F c H Room) as (c' & E & H' & W & G). exists c'. split; [|auto]. destruct fuel as [|f]; [lia|]. cbn [read_exact_loop].
    destruct (Nat.ltb_spec (length done) (length done + n)); [|lia]. replace (length done + n - length done)%nat with n by lia. unfold mbind. rewrite E. reflexivity.
Qed.
Lemma fulfils_total m key iv : forall j n done buf k pend bs c, (n <= j)%nat -> standing m c key iv buf k pend bs -> k + zlen (concat bs) < 2 ^ 64 ->
  exists x buf' k' pend' bs', fulfils key iv n done buf k pend bs x buf' k' pend' bs'.
Proof.
  induction j as [|j IH]; intros n done buf k pend bs c Lj H Room.
  - destruct n; [|lia]. eexists _, _, _, _, _. apply Fu_full.
  - destruct n as [|n]; [eexists _, _, _, _, _; apply Fu_full|].
    destruct (read_stands m c key iv (S n) buf k pend bs H Room) as (x & buf1 & k1 & pend1 & bs1 & c1 & F & E & H1 & _ & _ & R1 & [(d & ->)| -> ]).
    2:{ eexists _, _, _, _, _. eapply Fu_panic; [lia|exact F]. }
    destruct d as [|b d]; [eexists _, _, _, _, _; eapply Fu_none; [lia|exact F]|].
    destruct (IH (S n - length (b :: d))%nat (done ++ b :: d) buf1 k1 pend1 bs1 c1 ltac:(cbn [length]; lia) H1 R1) as (x & buf' & k' & pend' & bs' & Q).
    exists x, buf', k', pend', bs'. eapply Fu_more; [|exact F|exact Q]; discriminate.
Qed.
Theorem fulfils_iff m c key iv n buf k pend bs x buf' k' pend' bs' : standing m c key iv buf k pend bs -> k + zlen (concat bs) < 2 ^ 64 ->
  (fulfils key iv n [] buf k pend bs x buf' k' pend' bs' <-> exists c', read_exact m n c = (x, c') /\ standing m c' key iv buf' k' pend' bs' ).
Proof.
  intros H Room. split.
  - intros F. destruct (fulfils_loop m _ _ _ _ _ _ _ _ _ _ _ _ _ F n c ltac:(lia) H Room) as (c' & E & H' & _). exists c'. auto.
  - intros (c' & E & H'). destruct (fulfils_total m key iv n n [] buf k pend bs c ltac:(lia) H Room) as (y & buf2 & k2 & pend2 & bs2 & F).
    destruct (fulfils_loop m _ _ _ _ _ _ _ _ _ _ _ _ _ F n c ltac:(lia) H Room) as (c2 & E2 & H2 & _). unfold read_exact in E. cbn [length Nat.add] in E2. rewrite E in E2.
    apply pair_equal_spec in E2 as [<- <-]. destruct (standing_once _ _ _ _ _ _ _ _ _ _ _ _ H' H2) as (-> & -> & -> & ->). exact F.
Qed.

(** ** [read_to_end] *)
Lemma exhausts_runs m key iv sz i done buf k pend bs x buf' k' pend' bs' : exhausts key iv sz i done buf k pend bs x buf' k' pend' bs' -> forall c,
  standing m c key iv buf k pend bs -> k + zlen (concat bs) < 2 ^ 64 -> exists c', to_end m sz i done c x c' /\ standing m c' key iv buf' k' pend' bs' /\ c_writer c' = c_writer c.
Proof.
  induction 1 as [i done buf k pend bs buf' k' pend' bs' F|i done buf k pend bs d buf1 k1 pend1 bs1 x buf' k' pend' bs' Nd F Q IH|i done buf k pend bs buf' k' pend' bs' F]; intros c H Room;
    destruct (hauls_sound m _ _ _ _ _ _ _ _ _ _ _ _ F c H Room) as (c1 & E & H1 & W & G).
  - exists c1. split; [|auto]. apply To_stop, E.
  - destruct (hauls_room _ _ _ _ _ _ _ _ _ _ _ _ F) as (R & _). destruct (IH c1 H1 ltac:(lia)) as (c' & T & H' & W'). exists c'. split; [|rewrite W'; auto]. destruct d as [|b d]; [contradiction|]. exact (To_more m sz i done c b d c1 x c' E T).
  - exists c1. split; [|auto]. apply To_panic, E.
Qed.
Lemma to_end_exhausts m key iv sz i done c x c' : to_end m sz i done c x c' -> forall buf k pend bs, standing m c key iv buf k pend bs -> k + zlen (concat bs) < 2 ^ 64 ->
  exists buf' k' pend' bs', exhausts key iv sz i done buf k pend bs x buf' k' pend' bs' /\ standing m c' key iv buf' k' pend' bs'.
Proof.
  induction 1 as [i done c c' E|i done c b d c1 x c' E T IH|i done c e c' E|i done c c' E|i done c c' E]; intros buf k pend bs H Room;
    destruct (read_stands m c key iv (S (sz i)) buf k pend bs H Room) as (y & buf1 & k1 & pend1 & bs1 & c2 & F & E2 & H1 & _ & _ & R1 & Cy); rewrite E in E2; apply pair_equal_spec in E2 as [<- <-].
  - exists buf1, k1, pend1, bs1. split; [|exact H1]. apply Ex_stop, F.
  - destruct (IH _ _ _ _ H1 R1) as (buf' & k' & pend' & bs' & Q & H'). exists buf', k', pend', bs'. split; [|exact H']. eapply Ex_more; [|exact F|exact Q]. discriminate.
  - destruct Cy as [(? & X)|X]; discriminate X.
  - exists buf1, k1, pend1, bs1. split; [|exact H1]. apply Ex_panic, F.
  - destruct Cy as [(? & X)|X]; discriminate X.
Qed.
Theorem exhausts_iff m c key iv sz buf k pend bs x buf' k' pend' bs' : standing m c key iv buf k pend bs -> k + zlen (concat bs) < 2 ^ 64 ->
  (exhausts key iv sz 0 [] buf k pend bs x buf' k' pend' bs' <-> exists c', to_end m sz 0 [] c x c' /\ standing m c' key iv buf' k' pend' bs').
Proof.
  intros H Room. split.
  - intros F. destruct (exhausts_runs m _ _ _ _ _ _ _ _ _ _ _ _ _ _ F c H Room) as (c' & E & H' & _). exists c'. auto.
  - intros (c' & E & H'). destruct (to_end_exhausts m key iv sz _ _ _ _ _ E buf k pend bs H Room) as (buf2 & k2 & pend2 & bs2 & F & H2).
    destruct (standing_once _ _ _ _ _ _ _ _ _ _ _ _ H' H2) as (-> & -> & -> & ->). exact F.
Qed.
Lemma exhausts_one m c key iv sz buf k pend bs : standing m c key iv buf k pend bs -> k + zlen (concat bs) < 2 ^ 64 ->
  exists x buf' k' pend' bs', exhausts key iv sz 0 [] buf k pend bs x buf' k' pend' bs' /\
    forall y buf2 k2 pend2 bs2, exhausts key iv sz 0 [] buf k pend bs y buf2 k2 pend2 bs2 -> y = x /\ buf2 = buf' /\ k2 = k' /\ pend2 = pend' /\ bs2 = bs'.
Proof.
  intros H Room. pose proof H as (((Dk & _) & _) & _). destruct (to_end_keyed m sz key c Dk) as (x & c' & T & U & _).
  destruct (to_end_exhausts m key iv sz _ _ _ _ _ T buf k pend bs H Room) as (buf' & k' & pend' & bs' & F & H'). exists x, buf', k', pend', bs'. split; [exact F|].
  intros y buf2 k2 pend2 bs2 F2. destruct (exhausts_runs m _ _ _ _ _ _ _ _ _ _ _ _ _ _ F2 c H Room) as (c2 & T2 & H2 & _). destruct (U _ _ T2) as (-> & ->).
  destruct (standing_once _ _ _ _ _ _ _ _ _ _ _ _ H2 H') as (-> & -> & -> & ->). auto.
Qed.

(** ** Pauses of the transport between two records *)
Lemma data_catches key iv k pend d b l : length key = 32%nat -> length iv = 12%nat -> 0 <= k -> incomplete pend -> zlen d <= 16384 -> k + zlen d + 21 + zlen b < 2 ^ 64 ->
  catches key iv k pend ((sealed_record key iv k ApplicationDataTy d ++ b) :: l) (Ok d) (k + 1) pend (b :: l).
Proof.
  intros Lk Li K0 N L Room. apply answers_here; try assumption; [| |discriminate].
  - rewrite zlen_app. assert (Lr : zlen (sealed_record key iv k ApplicationDataTy d) = 21 + zlen d) by (unfold zlen; rewrite P_Talk3.sealed_length; lia). lia.
  - apply (V_record key iv k pend ApplicationDataTy x03 x03 d); [exact N|reflexivity|exact L|constructor].
Qed.
Lemma pause_catches key iv k pend l : incomplete pend -> catches key iv k pend ([] :: l) (Err IoFailure) k pend (onward l).
Proof. intros N. apply H_out. apply S_end; [exact N|left; reflexivity]. Qed.
(** all of one record, and what is buffered before it *)
Lemma hauls_exactly key iv n k pend d b l : length key = 32%nat -> length iv = 12%nat -> 0 <= k -> incomplete pend -> zlen d <= 16384 -> k + zlen d + 21 + zlen b < 2 ^ 64 -> n = length d -> (0 < n)%nat ->
  hauls key iv n [] k pend ((sealed_record key iv k ApplicationDataTy d ++ b) :: l) (Ok d) [] (k + 1) pend (b :: l).
Proof.
  intros Lk Li K0 N L Room -> Pn. change (Ok d) with (Ok ([] ++ d)). eapply U_data; [exact Pn|apply data_catches; assumption|]. cbn [length]. rewrite Nat.sub_0_r.
  pose proof (U_enough key iv (length d) d (k + 1) pend (b :: l) (le_n _)) as U. rewrite firstn_all, skipn_all in U. exact U.
Qed.
(** a record, and then a pause *)
Lemma hauls_short key iv n k pend d l : length key = 32%nat -> length iv = 12%nat -> 0 <= k -> incomplete pend -> zlen d <= 16384 -> k + zlen d + 21 < 2 ^ 64 -> (length d < n)%nat ->
  hauls key iv n [] k pend (sealed_record key iv k ApplicationDataTy d :: l) (Ok d) [] (k + 1) pend (onward l).
Proof.
  intros Lk Li K0 N L Room Ln. change (Ok d) with (Ok ([] ++ d)). eapply U_data; [cbn; lia| |].
  - rewrite <- (app_nil_r (sealed_record _ _ _ _ _)). apply data_catches; try assumption. change (zlen (@nil byte)) with 0. lia.
  - cbn [length]. rewrite Nat.sub_0_r. eapply U_stop; [exact Ln|apply pause_catches, N].
Qed.
Lemma two_room key iv k d1 d2 : zlen (concat (two_records key iv k d1 d2)) = 42 + zlen d1 + zlen d2.
Proof. unfold two_records. cbn [concat]. rewrite !zlen_app. assert (L : forall j d, zlen (sealed_record key iv j ApplicationDataTy d) = 21 + zlen d) by (intros; unfold zlen; rewrite P_Talk3.sealed_length; lia). rewrite !L. change (zlen (@nil byte)) with 0. lia. Qed.
(** a pause in the middle of what is asked for is not noticed *)
Theorem exact_bridges m c key iv k pend d1 d2 : standing m c key iv [] k pend (two_records key iv k d1 d2) -> incomplete pend -> d1 <> [] -> d2 <> [] -> zlen d1 <= 16384 -> zlen d2 <= 16384 -> k + 65536 < 2 ^ 64 ->
  exists c', read_exact m (length (d1 ++ d2)) c = (Ok (Filled (d1 ++ d2)), c').
Proof.
  intros H N N1 N2 L1 L2 Room. pose proof H as (((_ & _ & _ & Lk & Li & K0) & _) & _). assert (Q1 : (0 < length d1)%nat) by (destruct d1; [contradiction|cbn; lia]). assert (Q2 : (0 < length d2)%nat) by (destruct d2; [contradiction|cbn; lia]).
  assert (F : fulfils key iv (length (d1 ++ d2)) [] [] k pend (two_records key iv k d1 d2) (Ok (Filled (([] ++ d1) ++ d2))) [] (k + 1 + 1) pend [[]]).
  { eapply (Fu_more key iv _ _ _ _ _ _ d1); [exact N1|apply hauls_short; try assumption; [lia|rewrite app_length; lia]|]. cbn [onward].
    eapply (Fu_more key iv _ _ _ _ _ _ d2); [exact N2| |].
    - rewrite <- (app_nil_r (sealed_record _ _ _ _ _)). apply hauls_exactly; try assumption; [lia|change (zlen (@nil byte)) with 0; lia|rewrite app_length; lia|rewrite app_length; lia].
    - replace (length (d1 ++ d2) - length d1 - length d2)%nat with 0%nat by (rewrite app_length; lia). apply Fu_full. }
  apply (fulfils_iff m c) in F as (c' & E & _); [exists c'; exact E|exact H|]. rewrite two_room. lia.
Qed.
(** but one in front of it is the end *)
Theorem exact_pauses m c key iv k pend b l n : standing m c key iv [] k pend ([] :: b :: l) -> k < 2 ^ 64 -> incomplete pend -> (0 < n)%nat ->
  exists c', read_exact m n c = (Ok (UnexpectedEof []), c') /\ standing m c' key iv [] k pend (b :: l).
Proof.
  intros H K N Pn. destruct (pause_read m c key iv k pend b l n H K N Pn) as (c' & E & H'). exists c'. split; [|exact H'].
  unfold read_exact. destruct n as [|n]; [lia|]. cbn [read_exact_loop length Nat.ltb Nat.leb]. unfold mbind. rewrite Nat.sub_0_r, E. reflexivity.
Qed.
(** [read_to_end] goes on over the pause, or not, depending on the room it has *)
Theorem end_bridges m c key iv k pend d1 d2 sz : standing m c key iv [] k pend (two_records key iv k d1 d2) -> incomplete pend -> d1 <> [] -> d2 <> [] -> zlen d1 <= 16384 -> zlen d2 <= 16384 -> k + 65536 < 2 ^ 64 ->
  (length d1 <= sz 0)%nat -> (length d2 <= sz 1)%nat -> exists c', to_end m sz 0 [] c (Ok (d1 ++ d2)) c'.
Proof.
  intros H N N1 N2 L1 L2 Room S0 S1. pose proof H as (((_ & _ & _ & Lk & Li & K0) & _) & _).
  assert (F : exhausts key iv sz 0 [] [] k pend (two_records key iv k d1 d2) (Ok (([] ++ d1) ++ d2)) [] (k + 1 + 1) pend [[]]).
  { eapply (Ex_more key iv sz _ _ _ _ _ _ d1); [exact N1|apply hauls_short; try assumption; lia|]. cbn [onward].
    eapply (Ex_more key iv sz _ _ _ _ _ _ d2); [exact N2|apply hauls_short; try assumption; lia|]. cbn [onward].
    apply Ex_stop. eapply U_stop; [cbn; lia|]. apply (pause_catches key iv _ _ []), N. }
  apply (exhausts_iff m c) in F as (c' & E & _); [exists c'; exact E|exact H|]. rewrite two_room. lia.
Qed.
Theorem end_stops m c key iv k pend d1 d2 sz : standing m c key iv [] k pend (two_records key iv k d1 d2) -> incomplete pend -> d1 <> [] -> zlen d1 <= 16384 -> zlen d2 <= 16384 -> k + 65536 < 2 ^ 64 ->
  S (sz 0%nat) = length d1 -> exists c', to_end m sz 0 [] c (Ok d1) c'.
Proof.
  intros H N N1 L1 L2 Room S0. pose proof H as (((_ & _ & _ & Lk & Li & K0) & _) & _).
  assert (F : exhausts key iv sz 0 [] [] k pend (two_records key iv k d1 d2) (Ok ([] ++ d1)) [] (k + 1) pend [sealed_record key iv (k + 1) ApplicationDataTy d2]).
  { eapply (Ex_more key iv sz _ _ _ _ _ _ d1); [exact N1|unfold two_records; rewrite <- (app_nil_r (sealed_record key iv k _ _)); apply hauls_exactly; try assumption; [change (zlen (@nil byte)) with 0; lia|lia]|].
    apply Ex_stop. eapply U_stop; [cbn; lia|]. apply (pause_catches key iv _ _ [sealed_record key iv (k + 1) ApplicationDataTy d2]), N. }
  apply (exhausts_iff m c) in F as (c' & E & _); [exists c'; exact E|exact H|]. rewrite two_room. lia.
Qed.
Definition two_client (m : mode) (d1 d2 : bytes) : client :=
  Client (Reader (breaking (two_records (repeat x00 32) (repeat x00 12) 0 d1 d2)) (Some (new_decryptor m (repeat x00 32))) 0 [] (Some (repeat x00 12))) (writer_new []) [] [].
Lemma two_stands m d1 d2 : standing m (two_client m d1 d2) (repeat x00 32) (repeat x00 12) [] 0 [] (two_records (repeat x00 32) (repeat x00 12) 0 d1 d2).
Proof.
  split; [|reflexivity]. pose proof (some_placed m (breaking (two_records (repeat x00 32) (repeat x00 12) 0 d1 d2)) (repeat x00 32) (repeat x00 12) 0 [] eq_refl eq_refl ltac:(lia)) as P.
  rewrite breaking_stretches in P by discriminate. exact P.
Qed.
Lemma room_matters : exists m c sz1 sz2 key iv k d1 d2 c1 c2, standing m c key iv [] k [] (two_records key iv k d1 d2) /\ d2 <> [] /\
  to_end m sz1 0 [] c (Ok d1) c1 /\ to_end m sz2 0 [] c (Ok (d1 ++ d2)) c2.
Proof.
  assert (I0 : incomplete []) by (apply none_iff; reflexivity). pose proof (two_stands Release [x61; x62] [x63]) as H.
  destruct (end_stops Release _ _ _ _ _ _ _ (fun _ => 1%nat) H I0 ltac:(discriminate) ltac:(cbn; lia) ltac:(cbn; lia) ltac:(lia) eq_refl) as (c1 & T1).
  destruct (end_bridges Release _ _ _ _ _ _ _ (fun _ => 2%nat) H I0 ltac:(discriminate) ltac:(discriminate) ltac:(cbn; lia) ltac:(cbn; lia) ltac:(lia) ltac:(cbn; lia) ltac:(cbn; lia)) as (c2 & T2).
  eexists _, _, _, _, _, _, _, _, _, c1, c2. split; [exact H|]. split; [|split; [exact T1|exact T2]]. discriminate.
Qed.
