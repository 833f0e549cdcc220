(** Any number of forged records in place of one. *)
From Verif Require Export P_App P_App2 P_Open P_Client4 P_Forge Spec_Tries.
From Coq Require Import ZifyBool ZifyNat ZifyN.
#[local] Opaque chacha20_block aead_seal.

Definition a_ad (k : Z) (a : bogus) : bytes := rfc_ad k (f_type a) (f_major a) (f_minor a) (zlen (f_body a) - 16).
Definition a_ct (a : bogus) : bytes := firstn (length (f_body a) - 16) (f_body a).
Definition a_tag (a : bogus) : bytes := skipn (length (f_body a) - 16) (f_body a).
Definition passes (k : Z) (otk : bytes) (a : bogus) : Prop :=
  (16 <= length (f_body a))%nat /\
  poly1305_mac (aead_mac_data (a_ad k a) (a_ct a)) (firstn 16 otk) (skipn 16 otk) = a_tag a.

Lemma bogus_dec (a b : bogus) : {a = b} + {a <> b}.
Proof. decide equality; try apply Byte.byte_eq_dec; [apply (list_eq_dec Byte.byte_eq_dec)|decide equality]. Defined.
Lemma passes_dec k otk a : {passes k otk a} + {~ passes k otk a}.
Proof.
  unfold passes. destruct (le_dec 16 (length (f_body a))) as [L|L]; [|right; tauto].
  destruct (list_eq_dec Byte.byte_eq_dec (poly1305_mac (aead_mac_data (a_ad k a) (a_ct a)) (firstn 16 otk) (skipn 16 otk)) (a_tag a)) as [E|E]; [left; auto|right; tauto].
Qed.

Lemma protects_passes key iv k a p : protects key iv k (f_type a) (f_major a) (f_minor a) p (f_body a) ->
  passes k (one_time k (key, iv)) a.
Proof.
  unfold protects, passes, one_time. cbn [fst snd]. intros E.
  assert (L : length (f_body a) = (length p + 16)%nat) by (rewrite E; apply aead_seal_length).
  split; [lia|]. unfold a_ct, a_tag, a_ad.
  replace (zlen (f_body a) - 16) with (zlen p) by (unfold zlen; lia).
  replace (length (f_body a) - 16)%nat with (length p) by lia. rewrite E.
  Transparent aead_seal. unfold aead_seal. cbv zeta. Opaque aead_seal.
  set (c := chacha20_encrypt key 1 (rfc_nonce iv k) p). assert (Lc : length c = length p) by apply chacha20_encrypt_length.
  rewrite !firstn_app, !skipn_app, Lc, Nat.sub_diag.
  rewrite (firstn_all2 c), (skipn_all2 c) by lia. cbn [firstn skipn app]. rewrite app_nil_r. reflexivity.
Qed.

Lemma content_code_inj t t' : z2b (rfc_content_type t) = z2b (rfc_content_type t') -> t = t'.
Proof. destruct t, t'; intros E; try reflexivity; vm_compute in E; discriminate E. Qed.
Lemma a_ad_length k a : zlen (a_ad k a) = 13.
Proof. unfold a_ad, rfc_ad, zlen. rewrite !app_length, !be_length. reflexivity. Qed.
Lemma attempt_inj k a b : (16 <= length (f_body a))%nat -> (16 <= length (f_body b))%nat ->
  (a_ad k a, a_ct a, a_tag a) = (a_ad k b, a_ct b, a_tag b) -> a = b.
Proof.
  intros La Lb E. pose proof (f_equal (fun x => fst (fst x)) E) as E1. pose proof (f_equal (fun x => snd (fst x)) E) as E2.
  pose proof (f_equal snd E) as E3. cbn [fst snd] in *.
  assert (B : f_body a = f_body b).
  { rewrite <- (firstn_skipn (length (f_body a) - 16) (f_body a)), <- (firstn_skipn (length (f_body b) - 16) (f_body b)).
    unfold a_ct, a_tag in *. rewrite E2, E3. reflexivity. }
  unfold a_ad, rfc_ad in E1. apply app_inv_head in E1. cbn [app] in E1.
  destruct a as [t i j f], b as [t' i' j' f']. cbn [f_type f_major f_minor f_body] in *.
  pose proof (f_equal (fun l => nth 0 l x00) E1) as T. pose proof (f_equal (fun l => nth 1 l x00) E1) as I. pose proof (f_equal (fun l => nth 2 l x00) E1) as J.
  cbn [nth] in *. apply content_code_inj in T. congruence.
Qed.

(** one forged record *)
Lemma one_try k a b otks : a <> b -> zlen (f_body a) <= 18432 -> zlen (f_body b) <= 18432 -> NoDup otks ->
  Forall (fun otk => length otk = 32%nat /\ passes k otk a /\ passes k otk b) otks -> Z.of_nat (length otks) <= 2 ^ 36.
Proof.
  intros Ne A B N F. destruct otks as [|o os]; [cbn; lia|].
  assert (La : (16 <= length (f_body a))%nat /\ (16 <= length (f_body b))%nat).
  { inversion_clear F as [|? ? H _]. unfold passes in H. tauto. }
  destruct La as (La & Lb).
  assert (Ca : zlen (a_ct a) <= 18432) by (unfold a_ct, zlen in *; rewrite firstn_length; lia).
  assert (Cb : zlen (a_ct b) <= 18432) by (unfold a_ct, zlen in *; rewrite firstn_length; lia).
  pose proof (a_ad_length k a) as Da. pose proof (a_ad_length k b) as Db.
  assert (H : Z.of_nat (length (o :: os)) <= 2 ^ 25 * Z.max (mac_blocks (a_ad k a) (a_ct a)) (mac_blocks (a_ad k b) (a_ct b))).
  { apply (mac_forgery (a_ad k a) (a_ct a) (a_tag a) (a_ad k b) (a_ct b) (a_tag b)); [lia..|intros E; apply Ne, (attempt_inj k); assumption|exact N|].
    eapply Forall_impl; [|exact F]. cbn beta. intros x (L & (_ & P) & (_ & Q)). auto. }
  pose proof (record_blocks _ _ Da Ca). pose proof (record_blocks _ _ Db Cb). remember (length (o :: os)) as n. clear - H H0 H1. lia.
Qed.

(** many *)
Lemma many_tries k g attempts otks : zlen (f_body g) <= 18432 -> Forall (fun a => a <> g /\ zlen (f_body a) <= 18432) attempts ->
  NoDup otks -> Forall (fun otk => length otk = 32%nat /\ passes k otk g /\ Exists (passes k otk) attempts) otks ->
  Z.of_nat (length otks) <= 2 ^ 36 * Z.of_nat (length attempts).
Proof.
  intros G A N F. rewrite Forall_forall in A, F.
  pose (pick := fun otk => find (fun a => if passes_dec k otk a then true else false) attempts).
  assert (D : forall x y : option bogus, {x = y} + {x <> y}) by (decide equality; apply bogus_dec).
  rewrite Z.mul_comm, <- (map_length Some attempts).
  apply (fibres D pick); [exact N| |].
  - apply Forall_forall. intros o I. destruct (F o I) as (_ & _ & E). apply Exists_exists in E as (a & Ia & Pa).
    unfold pick. destruct (find _ attempts) as [b|] eqn:Q.
    + apply find_some in Q as (Ib & _). apply in_map, Ib.
    + exfalso. apply (find_none _ _ Q) in Ia. destruct (passes_dec k o a); [discriminate|contradiction].
  - intros [a|] ys Dy Iy Fy; [|destruct ys as [|y ys]; [cbn; lia|exfalso]].
    + destruct ys as [|y ys]; [cbn; lia|].
      assert (Ia : In a attempts /\ forall x, In x (y :: ys) -> passes k x a).
      { rewrite Forall_forall in Fy. split.
        - pose proof (Fy y (or_introl eq_refl)) as P. unfold pick in P. apply find_some in P. apply P.
        - intros x Ix. pose proof (Fy x Ix) as P. unfold pick in P. apply find_some in P as (_ & P). destruct (passes_dec k x a); [assumption|discriminate]. }
      destruct Ia as (Ia & Pa). destruct (A a Ia) as (Ne & La).
      apply (one_try k a g (y :: ys) Ne La G Dy). apply Forall_forall. intros x Ix. destruct (F x (Iy x Ix)) as (L & Pg & _). auto.
    + inversion_clear Fy as [|? ? P _]. destruct (F y (Iy y (or_introl eq_refl))) as (_ & _ & E). apply Exists_exists in E as (a & Ia & Pa).
      unfold pick in P. apply (find_none _ _ P) in Ia. destruct (passes_dec k y a); [discriminate|contradiction].
Qed.

(** reading them *)
Lemma beaten_passes m key iv k : k + 1 < 2 ^ 64 -> forall attempts r rest, keyed m r key iv k -> Forall (fun a => zlen (f_body a) <= 18432) attempts ->
  stream (r_src r) = concat (map on_wire attempts) ++ rest -> beaten m (length attempts) r -> Exists (passes k (one_time k (key, iv))) attempts.
Proof.
  intros K. induction attempts as [|a as_ IH]; intros r rest Kr F S B; [destruct B|].
  inversion_clear F as [|? ? La F']. cbn [map concat length] in *. rewrite <- app_assoc in S. cbn [beaten] in B.
  destruct (record_opens m r key iv k (f_type a) (f_major a) (f_minor a) (f_body a) _ Kr K La S) as (r' & S' & _ & [(p & P & _)|[(p & P & _)|(_ & E & Kr')]]).
  - left. exact (protects_passes _ _ _ _ _ P).
  - left. exact (protects_passes _ _ _ _ _ P).
  - right. rewrite E in B. exact (IH r' rest Kr' F' S' B).
Qed.

Lemma tries_bound m k g attempts conns : 0 <= k -> k + 1 < 2 ^ 64 -> zlen (f_body g) <= 18432 ->
  Forall (fun a => a <> g /\ zlen (f_body a) <= 18432) attempts -> NoDup (map (one_time k) conns) ->
  Forall (fun c => (exists p, protects (fst c) (snd c) k (f_type g) (f_major g) (f_minor g) p (f_body g)) /\
     exists r rest, keyed m r (fst c) (snd c) k /\ stream (r_src r) = concat (map on_wire attempts) ++ rest /\ beaten m (length attempts) r) conns ->
  Z.of_nat (length conns) <= 2 ^ 36 * Z.of_nat (length attempts).
Proof.
  intros K0 K G A N F. rewrite <- (map_length (one_time k) conns). apply (many_tries k g); [exact G|exact A|exact N|].
  apply Forall_forall. intros o I. apply in_map_iff in I as ([key iv] & <- & I). rewrite Forall_forall in F.
  destruct (F _ I) as ((p & P) & r & rest & Kr & S & B). cbn [fst snd] in *.
  split; [apply poly_key_gen_length|]. split; [exact (protects_passes _ _ _ _ _ P)|].
  apply (beaten_passes m key iv k K attempts r rest); [exact Kr| |exact S|exact B].
  eapply Forall_impl; [|exact A]. cbn beta. tauto.
Qed.

(** ** the same for the calls of the application *)
Lemma not_protected key iv k a : (forall p, ~ protects key iv k (f_type a) (f_major a) (f_minor a) p (f_body a)) ->
  forall p, f_body a <> aead_seal key (rfc_nonce iv k) (rfc_ad k (f_type a) (f_major a) (f_minor a) (zlen (f_body a) - 16)) p.
Proof.
  intros H p E. apply (H p). unfold protects. rewrite E at 1. f_equal. f_equal.
  assert (X : zlen (f_body a) = zlen p + 16) by (rewrite E; apply sealed_len). lia.
Qed.
Lemma vain_step m c key iv k a n rest : keyed m (c_reader c) key iv k -> no_pending (c_reader c) -> c_buf c = [] -> k + 1 < 2 ^ 64 -> zlen (f_body a) <= 18432 ->
  (forall p, ~ protects key iv k (f_type a) (f_major a) (f_minor a) p (f_body a)) -> stream (r_src (c_reader c)) = on_wire a ++ rest ->
  exists c', client_read m (S n) c = (Ok [], c') /\ keyed m (c_reader c') key iv k /\ no_pending (c_reader c') /\ c_buf c' = [] /\ stream (r_src (c_reader c')) = rest.
Proof.
  intros K NP B Hk L N St.
  destruct (read_app_forged m _ key iv k _ _ _ _ _ K St ltac:(lia) ltac:(lia) (not_protected _ _ _ _ N) NP) as (r1 & E1 & K1 & S1 & NP1).
  eexists. split; [apply (read_swallows m (S n) c _ r1 (Nat.lt_0_succ n) B E1)|]. cbn [c_reader c_buf]. auto.
Qed.
Lemma patient m key iv k f rest : k + 1 < 2 ^ 64 -> legal_fragment f -> forall attempts ns c, keyed m (c_reader c) key iv k -> no_pending (c_reader c) -> c_buf c = [] ->
  Forall (fun a => zlen (f_body a) <= 18432 /\ forall p, ~ protects key iv k (f_type a) (f_major a) (f_minor a) p (f_body a)) attempts -> length ns = length attempts ->
  stream (r_src (c_reader c)) = concat (map on_wire attempts) ++ sealed_record key iv k ApplicationDataTy f ++ rest ->
  exists c1 c2, vain m ns c c1 /\ client_read m (length f) c1 = (Ok f, c2).
Proof.
  intros Hk [L1 L2]. induction attempts as [|a as_ IH]; intros ns c K NP B F Ln S.
  - destruct ns; [|discriminate Ln]. cbn [map concat app] in S.
    destruct (read_app_data m _ key iv k f rest K S L2 Hk NP) as (r2 & E2 & _).
    assert (Lf : (0 < length f)%nat) by (unfold zlen in L1; lia).
    eexists _, _. split; [constructor|]. apply rd_read.
    eapply Rd_data; [exact Lf|exact B|exact E2|]. cbn [length app]. rewrite firstn_len. apply Rd_full. lia.
  - destruct ns as [|n ns]; [discriminate Ln|]. inversion_clear F as [|? ? (La & Na) F']. cbn [map concat] in S. rewrite <- app_assoc in S.
    destruct (vain_step m c key iv k a n _ K NP B Hk La Na S) as (c' & E & K' & NP' & B' & S').
    destruct (IH ns c' K' NP' B' F' ltac:(now injection Ln) S') as (c1 & c2 & V & R).
    exists c1, c2. split; [exact (Vain_more _ _ _ _ _ _ E V)|exact R].
Qed.
Lemma gains_passes m key iv k : k + 1 < 2 ^ 64 -> forall attempts ns c rest, keyed m (c_reader c) key iv k -> no_pending (c_reader c) -> c_buf c = [] ->
  Forall (fun a => zlen (f_body a) <= 18432) attempts -> length ns = length attempts ->
  stream (r_src (c_reader c)) = concat (map on_wire attempts) ++ rest -> gains m ns c -> Exists (passes k (one_time k (key, iv))) attempts.
Proof.
  intros Hk. induction attempts as [|a as_ IH]; intros ns c rest K NP B F Ln S G.
  - destruct ns; [destruct G|discriminate Ln].
  - destruct ns as [|n ns]; [discriminate Ln|]. inversion_clear F as [|? ? La F']. cbn [map concat] in S. rewrite <- app_assoc in S.
    destruct (record_opens m (c_reader c) key iv k (f_type a) (f_major a) (f_minor a) (f_body a) _ K Hk La S) as (r' & _ & _ & [(p & P & _)|[(p & P & _)|(N & _)]]).
    + left. exact (protects_passes _ _ _ _ _ P).
    + left. exact (protects_passes _ _ _ _ _ P).
    + right. destruct (vain_step m c key iv k a n _ K NP B Hk La N S) as (c' & E & K' & NP' & B' & S').
      cbn [gains] in G. rewrite E in G. exact (IH ns c' rest K' NP' B' F' ltac:(now injection Ln) S' G).
Qed.
Lemma gains_bound m k g attempts conns : 0 <= k -> k + 1 < 2 ^ 64 -> zlen (f_body g) <= 18432 ->
  Forall (fun a => a <> g /\ zlen (f_body a) <= 18432) attempts -> NoDup (map (one_time k) conns) ->
  Forall (fun d => (exists p, protects (fst d) (snd d) k (f_type g) (f_major g) (f_minor g) p (f_body g)) /\
     exists c ns rest, keyed m (c_reader c) (fst d) (snd d) k /\ no_pending (c_reader c) /\ c_buf c = [] /\ length ns = length attempts /\
       stream (r_src (c_reader c)) = concat (map on_wire attempts) ++ rest /\ gains m ns c) conns ->
  Z.of_nat (length conns) <= 2 ^ 36 * Z.of_nat (length attempts).
Proof.
  intros K0 K G A N F. rewrite <- (map_length (one_time k) conns). apply (many_tries k g); [exact G|exact A|exact N|].
  apply Forall_forall. intros o I. apply in_map_iff in I as ([key iv] & <- & I). rewrite Forall_forall in F.
  destruct (F _ I) as ((p & P) & c & ns & rest & Kr & NP & B & Ln & S & Gn). cbn [fst snd] in *.
  split; [apply poly_key_gen_length|]. split; [exact (protects_passes _ _ _ _ _ P)|].
  apply (gains_passes m key iv k K attempts ns c rest); try assumption.
  eapply Forall_impl; [|exact A]. cbn beta. tauto.
Qed.

(** ** a case *)
Definition try_reader (m : mode) (key iv : bytes) (k : Z) (s : bytes) : reader := Reader (source s) (Some (new_decryptor m key)) k [] (Some iv).
Definition sealed_as (key iv : bytes) (k : Z) (d : bytes) : bogus :=
  Bogus ApplicationDataTy x03 x03 (aead_seal key (rfc_nonce iv k) (rfc_ad k ApplicationDataTy x03 x03 (zlen d)) d).
Lemma try_case m key iv : length key = 32%nat -> length iv = 12%nat ->
  let g := sealed_as key iv 1 [x41] in let a := sealed_as key iv 1 [x42] in
  a <> g /\ zlen (f_body g) <= 18432 /\ zlen (f_body a) <= 18432 /\ protects key iv 1 (f_type g) (f_major g) (f_minor g) [x41] (f_body g) /\
  exists r, keyed m r key iv 1 /\ stream (r_src r) = concat (map on_wire [a]) ++ [] /\ beaten m 1 r.
Proof.
  intros Lk Li g a. assert (Hn : length (rfc_nonce iv 1) = 12%nat) by (apply rfc_nonce_length; [exact Li|lia]).
  assert (La : zlen (f_body a) = 17) by (unfold a; cbn [f_body sealed_as]; rewrite sealed_len; reflexivity).
  assert (Lg : zlen (f_body g) = 17) by (unfold g; cbn [f_body sealed_as]; rewrite sealed_len; reflexivity).
  split; [|split; [lia|split; [lia|split; [reflexivity|]]]].
  - intros E. apply (f_equal f_body) in E. unfold a, g in E. cbn [f_body sealed_as] in E.
    assert (P := proj2 (open_iff_seal m key (rfc_nonce iv 1) (rfc_ad 1 ApplicationDataTy x03 x03 1) (f_body g) [x41] Lk Hn ltac:(apply fits_record; lia)) eq_refl).
    assert (Q := proj2 (open_iff_seal m key (rfc_nonce iv 1) (rfc_ad 1 ApplicationDataTy x03 x03 1) (f_body g) [x42] Lk Hn ltac:(apply fits_record; lia)) (eq_sym E)).
    rewrite P in Q. discriminate Q.
  - exists (try_reader m key iv 1 (on_wire a)).
    assert (K : keyed m (try_reader m key iv 1 (on_wire a)) key iv 1).
    { unfold keyed, try_reader. cbn [r_dec r_iv r_count]. repeat (split; [first [reflexivity|assumption]|]). lia. }
    split; [exact K|]. assert (S : stream (r_src (try_reader m key iv 1 (on_wire a))) = on_wire a ++ []).
    { unfold try_reader. cbn [r_src]. rewrite app_nil_r. apply source_stream. }
    split; [cbn [map concat]; rewrite app_nil_r; exact S|]. cbn [beaten].
    destruct (record_opens m _ key iv 1 (f_type a) (f_major a) (f_minor a) (f_body a) [] K ltac:(lia) ltac:(lia) S) as (r' & _ & _ & [(p & _ & _ & E & _)|[(p & _ & _ & E)|(N & _)]]).
    + rewrite E. exact Logic.I.
    + rewrite E. exact Logic.I.
    + exfalso. apply (N [x42]). reflexivity.
Qed.
Lemma too_short key iv k t maj min p f : zlen f < 16 -> ~ protects key iv k t maj min p f.
Proof. intros L E. unfold protects in E. apply (f_equal zlen) in E. rewrite sealed_len in E. pose proof (zlen_nonneg p). lia. Qed.
Lemma one_try_false : exists m c key iv f attempts ns c1 c2, keyed m (c_reader c) key iv 1 /\ c_buf c = [] /\ (1000 < length attempts)%nat /\
  stream (r_src (c_reader c)) = concat (map on_wire attempts) ++ sealed_record key iv 1 ApplicationDataTy f /\
  Forall (fun a => forall p, ~ protects key iv 1 (f_type a) (f_major a) (f_minor a) p (f_body a)) attempts /\ length ns = length attempts /\
  vain m ns c c1 /\ f <> [] /\ client_read m (length f) c1 = (Ok f, c2).
Proof.
  pose (key := repeat x00 32). pose (iv := repeat x00 12). pose (a := Bogus ApplicationDataTy x03 x03 [x00]).
  remember 1001%nat as n eqn:En.
  pose (s := concat (map on_wire (repeat a n)) ++ sealed_record key iv 1 ApplicationDataTy [x41] ++ []).
  pose (c := Client (try_reader Release key iv 1 s) (writer_new []) [] []).
  assert (K : keyed Release (c_reader c) key iv 1).
  { unfold keyed, c, try_reader. cbn [c_reader r_dec r_iv r_count]. repeat (split; [reflexivity|]). lia. }
  assert (S : stream (r_src (c_reader c)) = s) by (unfold c, try_reader; cbn [c_reader r_src]; apply source_stream).
  assert (N : forall p, ~ protects key iv 1 (f_type a) (f_major a) (f_minor a) p (f_body a)) by (intros p; apply too_short; reflexivity).
  assert (F : Forall (fun a => zlen (f_body a) <= 18432 /\ forall p, ~ protects key iv 1 (f_type a) (f_major a) (f_minor a) p (f_body a)) (repeat a n)).
  { apply Forall_forall. intros x I. apply repeat_spec in I. subst x. split; [vm_compute; discriminate|exact N]. }
  assert (L : length (repeat 0%nat n) = length (repeat a n)) by (rewrite !repeat_length; reflexivity).
  destruct (patient Release key iv 1 [x41] [] ltac:(lia) ltac:(split; cbv; discriminate) (repeat a n) (repeat 0%nat n) c K eq_refl eq_refl F L S) as (c1 & c2 & V & R).
  exists Release, c, key, iv, [x41], (repeat a n), (repeat 0%nat n), c1, c2.
  split; [exact K|]. split; [reflexivity|]. split; [rewrite repeat_length; lia|]. split; [rewrite S; unfold s; rewrite app_nil_r; reflexivity|].
  split; [eapply Forall_impl; [|exact F]; intros x (_ & H); exact H|]. split; [exact L|]. split; [exact V|]. split; [discriminate|exact R].
Qed.
