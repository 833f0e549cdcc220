(** C105: what the default methods of [std] send and give, and where the laws stop. *)
From Verif Require Import Spec_Client3 Spec_Life Spec_Wrap P_Util P_Codec P_RecordW P_RecordR P_Record P_Client P_Client2 P_App P_App2 P_App3 P_Client3 P_Client4 P_Ops P_Client5 P_Peer P_Life P_Wrap P_Laws M_Std2 Spec_Laws.
From Coq Require Import ZifyBool ZifyNat ZifyN.
Local Open Scope list_scope.
Local Open Scope Z_scope.
#[local] Opaque SHA256 HMAC aead_seal aead_decrypt aead_encrypt compute_keys PRF nmul.

Lemma written_pieces ps : written (map Write ps) = concat ps.
Proof. unfold written. rewrite map_map, map_id. reflexivity. Qed.
Lemma cost_pieces ps : cost (map Write ps) = zlen (concat ps).
Proof. unfold cost. induction ps as [|p ps IH]; [reflexivity|]. cbn [map fold_right concat]. rewrite zlen_app, IH. reflexivity. Qed.
(** ** [write_fmt] *)
Theorem fmt_heard m s p g c ps : client_new m s p g = (Ok tt, c) -> healthy (writer_new p) -> 2 + zlen (concat ps) < 2 ^ 64 ->
  exists c', client_write_fmt m ps c = (Ok tt, c') /\ c_buf c' = c_buf c /\ c_reader c' = c_reader c /\
    forall t, stream t = w_out (c_writer c') -> exists ss it, reached m s g (Complete ss) /\ hears m t ss it /\ app_data (map heard it) = concat ps.
Proof.
  intros E H K. destruct (calls m (map Write ps) c) as [as_ c'] eqn:C. destruct (connected_emit m s p g c (map Write ps) as_ c' E ltac:(rewrite cost_pieces; lia) C) as [G _].
  pose proof (calls_fmt m ps as_ c c' C (G H)) as F. exists c'. split; [exact F|].
  assert (B : forall ps c c', client_write_fmt m ps c = (Ok tt, c') -> c_buf c' = c_buf c /\ c_reader c' = c_reader c).
  { clear. induction ps as [|p ps IH]; intros c c' F; cbn [client_write_fmt] in F; [inversion F; auto|]. unfold mbind in F.
    destruct (client_write_all m p c) as [[u|k| |] c1] eqn:W; try discriminate. destruct (IH _ _ F) as [-> ->].
    unfold client_write_all, or_alert, on_writer in W. destruct (write_application_data m p (c_writer c)) as [[v|k| |] w1]; try discriminate.
    - inversion W; subst. auto.
    - destruct (send_tls_alert m k _) as [[e|e| |] c2]; discriminate. }
  destruct (B _ _ _ F) as [B1 B2]. split; [exact B1|]. split; [exact B2|]. intros t S.
  destruct (peer_hears m s p g c (map Write ps) as_ c' t E H ltac:(rewrite cost_pieces; lia) C S) as (ss & it & R & _ & Hh & A). exists ss, it. rewrite written_pieces in A. auto.
Qed.

(** ** the vectored methods *)
Theorem vectored_first m pre b post c : Forall (fun x => x = []) pre -> b <> [] ->
  client_write_vectored m (pre ++ b :: post) c = client_write m b c /\
  client_read_vectored m (map (@length byte) (pre ++ b :: post)) c = client_read m (length b) c.
Proof.
  intros F N. unfold client_write_vectored, client_read_vectored, first_nonempty. induction F as [|x pre -> F IH]; cbn [app map find].
  - destruct b as [|z b]; [congruence|]. split; reflexivity.
  - exact IH.
Qed.
Theorem vectored_none m pre c : Forall (fun x : bytes => x = []) pre -> client_write_vectored m pre c = client_write m [] c /\
  client_read_vectored m (map (@length byte) pre) c = (Ok [], c).
Proof.
  intros F. unfold client_write_vectored, client_read_vectored, first_nonempty. induction F as [|x pre -> F IH]; cbn [app map find]; [split; reflexivity|exact IH].
Qed.
Theorem vectored_partial : exists m s g c c' a b, client_new m s [] g = (Ok tt, c) /\ b <> [] /\ client_write_vectored m [a; b] c = (Ok (zlen a), c').
Proof.
  destruct (plain_run Debug (fun _ => [])) as (s & g & ss & c & E & _). destruct (connected _ _ _ _ _ E) as (ss' & _ & _ & _ & W & H & _).
  assert (P : parcels [x61] [[x61]]) by (apply parcels_small; split; discriminate).
  destruct (write_debug _ _ _ _ _ c P W ltac:(lia) (H (Forall_nil _))) as (c' & E' & _).
  exists Debug, s, g, c, c', [x61], [x62]. split; [exact E|]. split; [discriminate|]. exact E'.
Qed.
(** ** a write may not be split anywhere *)
Lemma write_of_all m d c n c' : client_write m d c = (Ok n, c') -> client_write_all m d c = (Ok tt, c').
Proof. unfold client_write, mbind, mret. destruct (client_write_all m d c) as [[[]|k| |] c1]; try discriminate. intros E. inversion E. reflexivity. Qed.
Theorem write_anywhere_false : exists m s g c a b c1 c2, client_new m s [] g = (Ok tt, c) /\
  client_write_all m (a ++ b) c = (Ok tt, c1) /\ (do* _ := client_write_all m a in client_write_all m b) c = (Ok tt, c2) /\
  w_out (c_writer c1) <> w_out (c_writer c2).
Proof.
  destruct (plain_run Debug (fun _ => [])) as (s & g & ss & c & E & _). destruct (connected _ _ _ _ _ E) as (ss' & _ & _ & _ & W & H & _).
  specialize (H (Forall_nil _)). assert (P : forall d, legal_fragment d -> parcels d [d]) by (intros d L; apply parcels_small; exact L).
  destruct (write_debug _ _ _ _ _ c (P [x61; x62] ltac:(split; discriminate)) W ltac:(lia) H) as (c1 & E1 & O1 & _).
  destruct (write_debug _ _ _ _ _ c (P [x61] ltac:(split; discriminate)) W ltac:(lia) H) as (c2 & E2 & O2 & K2 & H2).
  destruct (write_debug _ _ _ _ _ c2 (P [x62] ltac:(split; discriminate)) (K2 ltac:(reflexivity)) ltac:(reflexivity) H2) as (c3 & E3 & O3 & _).
  exists Debug, s, g, c, [x61], [x62], c1, c3. split; [exact E|]. split; [exact (write_of_all _ _ _ _ _ E1)|].
  split; [unfold mbind; rewrite (write_of_all _ _ _ _ _ E2); exact (write_of_all _ _ _ _ _ E3)|].
  rewrite O3, O2, O1. intros X. apply (f_equal (@length byte)) in X. 
  change (firstn _ [[x61; x62]]) with [[x61; x62]] in X. change (firstn _ [[x61]]) with [[x61]] in X. change (firstn _ [[x62]]) with [[x62]] in X.
  cbn [sealed_stream] in X. rewrite !app_nil_r, !app_length, !P_Talk3.sealed_length in X. cbn [length] in X. lia.
Qed.

(** ** any partition *)
Theorem read_parts m : forall ns c, reading m ns c = client_read m (fold_right Nat.add 0%nat ns) c.
Proof.
  induction ns as [|n ns IH]; intros c; [reflexivity|]. cbn [reading fold_right]. rewrite read_split. unfold mbind.
  destruct (client_read m n c) as [[d|k| |] c1]; try reflexivity. destruct (length d <? n)%nat; [reflexivity|]. rewrite IH. reflexivity.
Qed.
Theorem read_partition m ns ns' c : fold_right Nat.add 0%nat ns = fold_right Nat.add 0%nat ns' -> reading m ns c = reading m ns' c.
Proof. intros E. rewrite !read_parts, E. reflexivity. Qed.
Theorem write_parts m : forall ps c b, Forall (fun p => zlen p mod 16384 = 0) ps -> handing m (ps ++ [b]) c = client_write_all m (concat ps ++ b) c.
Proof.
  induction ps as [|p ps IH]; intros c b F.
  - cbn [app concat handing]. unfold mbind, mret. destruct (client_write_all m b c) as [[[]|k| |] c1]; reflexivity.
  - inversion F; subst. cbn [app concat handing]. rewrite <- app_assoc, write_split by assumption. unfold mbind.
    destruct (client_write_all m p c) as [[[]|k| |] c1]; try reflexivity. apply IH. assumption.
Qed.
Lemma held m r w g : let c := Client r w g [x61; x62; x63] in
  client_read m 3 c = (Ok [x61; x62; x63], Client r w g []) /\ reading m [1%nat; 2%nat] c = (Ok [x61; x62; x63], Client r w g []).
Proof. cbv zeta. rewrite read_parts. cbn [fold_right Nat.add]. split; reflexivity. Qed.
Lemma block_parts m c : exists a, length a = Z.to_nat 16384 /\ handing m [a; [x61]] c = client_write_all m (a ++ [x61]) c.
Proof.
  exists (repeat x00 (Z.to_nat 16384)). split; [apply repeat_length|]. generalize (write_parts m [repeat x00 (Z.to_nat 16384)] c [x61]).
  cbn [concat app]. rewrite app_nil_r. intros E. apply E. constructor; [|constructor]. unfold zlen. rewrite repeat_length, Z2Nat.id by discriminate. reflexivity.
Qed.
(** ** the first piece that fails *)
Theorem fmt_stops m : forall ps c x c', client_write_fmt m ps c = (x, c') -> x <> Ok tt ->
  exists pre p post c1, ps = pre ++ p :: post /\ client_write_fmt m pre c = (Ok tt, c1) /\ client_write_all m p c1 = (x, c').
Proof.
  induction ps as [|p ps IH]; intros c x c' E N; cbn [client_write_fmt] in E; [inversion E; congruence|]. unfold mbind in E.
  destruct (client_write_all m p c) as [[[]|k| |] c1] eqn:W.
  - destruct (IH _ _ _ E N) as (pre & q & post & c2 & -> & F & G). exists (p :: pre), q, post, c2. split; [reflexivity|]. split; [|exact G].
    cbn [client_write_fmt]. unfold mbind. rewrite W. exact F.
  - inversion E; subst. exists [], p, ps, c. repeat (split; [reflexivity|]). exact W.
  - inversion E; subst. exists [], p, ps, c. repeat (split; [reflexivity|]). exact W.
  - inversion E; subst. exists [], p, ps, c. repeat (split; [reflexivity|]). exact W.
Qed.
Theorem fmt_goes m : forall ps c c', client_write_fmt m ps c = (Ok tt, c') <-> calls m (map Write ps) c = (map (fun p => Wrote (Ok (zlen p))) ps, c').
Proof.
  intros ps c c'. split; [apply fmt_calls|]. intros E. apply (calls_fmt _ _ _ _ _ E). clear. induction ps as [|p ps IH]; cbn [map]; constructor; [reflexivity|exact IH].
Qed.
