(** Proofs about all types the macros can define. *)
From Verif Require Import Spec_Schema P_Util P_Codec.
From Coq Require Import ZifyBool ZifyNat ZifyN.
Local Open Scope list_scope.
Local Open Scope Z_scope.

Lemma width_agrees mx : 0 <= mx < 2 ^ 32 -> vec_width mx = length_width mx.
Proof.
  intros H. unfold vec_width, length_width. destruct (Z.eq_dec mx 0) as [->|N]; [reflexivity|].
  assert (L : forall k, 0 <= k -> mx < 2 ^ k <-> Z.log2 mx < k) by (intros k Hk; apply Z.log2_lt_pow2; lia).
  pose proof (Z.log2_nonneg mx) as L0. pose proof (proj1 (L 32 ltac:(lia)) (proj2 H)) as L32.
  destruct (Z.ltb_spec mx (2 ^ 8)) as [A|A]; [apply L in A; [|lia]; lia|].
  assert (~ Z.log2 mx < 8) by (intros X; apply L in X; lia).
  destruct (Z.ltb_spec mx (2 ^ 16)) as [B|B]; [apply L in B; [|lia]; lia|].
  assert (~ Z.log2 mx < 16) by (intros X; apply L in X; lia).
  destruct (Z.ltb_spec mx (2 ^ 24)) as [C|C]; [apply L in C; [|lia]; lia|].
  assert (~ Z.log2 mx < 24) by (intros X; apply L in X; lia).
  destruct (Z.ltb_spec mx (2 ^ 32)) as [D|D]; lia.
Qed.
Lemma smallest_least {A} (s : schema A) a : sensible s -> smallest s <= tls_size (item_of s) a.
Proof.
  induction s as [|w|A w code vs|n|A B s IHs t IHt|A B mk pt s IHs|A w tag s IHs|A s IHs mn mx]; cbn [smallest item_of tls_size i_u8 i_num i_enum i_array i_pair i_map i_vec sensible]; intros W; try lia.
  - specialize (IHs (fst a) (proj1 W)). specialize (IHt (snd a) (proj2 W)). lia.
  - apply IHs. tauto.
  - specialize (IHs a (proj2 W)). lia.
  - destruct W as (M & Sm & Ws). rewrite (width_agrees mx M). assert (0 <= data_size (item_of s) a); [|lia].
    unfold data_size. clear - Sm Ws IHs. induction a as [|x a IH]; cbn [fold_right]; [lia|]. specialize (IHs x Ws). lia.
Qed.
Lemma enum_sound {A} w (code : A -> Z) vs : sensible (S_enum w code vs) -> enum_ok w code vs.
Proof.
  intros (All & Inj & R) a. split; [|apply R]. unfold from_code. destruct (find (fun b => code b =? code a) vs) as [b|] eqn:E.
  - apply find_some in E as [_ E]. f_equal. apply Inj. lia.
  - pose proof (find_none _ _ E a (All a)) as X. cbv beta in X. lia.
Qed.
Lemma data_size_layout {A} (s : schema A) l : codec (item_of s) (belongs s) (layout s) -> Forall (belongs s) l -> data_size (item_of s) l = zlen (concat (map (layout s) l)).
Proof. intros C F. exact (data_size_enc _ _ _ _ C F). Qed.
Lemma schema_codec {A} (s : schema A) : sensible s -> codec (item_of s) (belongs s) (layout s) /\ parser (item_of s) (belongs s).
Proof.
  induction s as [|w|A w code vs|n|A B s IHs t IHt|A B mk pt s IHs|A w tag s IHs|A s IHs mn mx]; intros W.
  - split; [exact codec_u8|exact parser_u8].
  - split; [exact (codec_num w)|exact (parser_num w)].
  - split; [exact (codec_enum w code vs (enum_sound _ _ _ W))|exact (parser_enum w code vs)].
  - split; [exact (codec_array n)|exact (parser_array n)].
  - destruct W as [Ws Wt]. destruct (IHs Ws) as [Cs Ps], (IHt Wt) as [Ct Pt]. split; [exact (codec_pair _ _ _ _ _ _ Cs Ct)|exact (parser_pair _ _ _ _ Ps Pt)].
  - destruct W as (mp & pm & Ws). destruct (IHs Ws) as [Cs Ps]. split; [exact (codec_map _ _ _ _ _ Cs mp)|exact (parser_map _ _ _ _ Ps pm)].
  - destruct W as (R & Ws). destruct (IHs Ws) as [Cs Ps]. split; cbn [item_of layout].
    + split; cbn [tls_write tls_read tls_size]; intros a.
      * intros Ba. rewrite (co_write _ _ _ Cs a Ba). reflexivity.
      * intros Ba. rewrite (co_size _ _ _ Cs a Ba), zlen_app, zlen_be. reflexivity.
      * intros rest Ba. rewrite <- app_assoc, rd_num_app by exact R. cbn [rbind]. rewrite Z.eqb_refl. exact (co_read _ _ _ Cs a rest Ba).
    + split; cbn [tls_write tls_read tls_size].
      * intros bs. apply rbind_value; [apply rd_num_value|]. intros [n r] _. destruct (n =? tag); [apply Ps|exact I].
      * intros bs a rest H. apply rbind_ok in H as ([n r] & HN & H). destruct (Z.eqb_spec n tag) as [->|]; [|discriminate]. apply rd_num_inv in HN as [-> _].
        apply (pa_canon _ _ Ps) in H as (x & -> & L & C). exists (be w tag ++ x). split; [apply app_assoc|]. split; [rewrite zlen_app, zlen_be; lia|].
        intros w' H. apply rbind_ok in H as (y & HY & E). injection E as <-. rewrite (C y HY). reflexivity.
      * intros bs a rest H. apply rbind_ok in H as ([n r] & HN & H). destruct (n =? tag); [|discriminate]. exact (pa_wf _ _ Ps _ _ _ H).
      * intros a. apply rbind_value; [apply Ps|]. intros x _. exact I.
  - destruct W as (M & Sm & Ws). destruct (IHs Ws) as [Cs Ps]. assert (P1 : forall a, 1 <= tls_size (item_of s) a) by (intros a; pose proof (smallest_least s a Ws); lia).
    split; cbn [item_of layout belongs].
    + pose proof (codec_vec (item_of s) _ _ mn mx Cs (fun a _ => P1 a) ltac:(lia)) as C. rewrite (width_agrees mx M) in C. exact C.
    + eapply parser_weaken; [exact (parser_vec (item_of s) _ mn mx Ps P1)|]. intros l [F R]. split; [exact F|]. rewrite (data_size_layout s l Cs F) in R. exact R.
Qed.

Definition tame {A} (r : res A) : Prop := (exists a, r = Ok a) \/ r = Err IoFailure \/ r = Err DecodeError.
Lemma tame_bind {A B} (r : res A) (f : A -> res B) : tame r -> (forall a, r = Ok a -> tame (f a)) -> tame (rbind r f).
Proof. intros [[a ->]|[->| ->]] H; cbn [rbind]; [apply H; reflexivity|right; left; reflexivity|right; right; reflexivity]. Qed.
Lemma tame_num w bs : tame (rd_num w bs).
Proof. unfold rd_num. apply tame_bind; [|intros [x r] _; left; eauto]. unfold read_n. destruct (_ <=? _)%nat; [left; eauto|right; left; reflexivity]. Qed.
Lemma tame_items {A} (J : item A) : (forall bs, tame (tls_read J bs)) -> forall fuel i n bs, is_value (read_items J fuel i n bs) -> tame (read_items J fuel i n bs).
Proof.
  intros T. induction fuel as [|fuel IH]; intros i n bs; cbn [read_items]; destruct (i <? n); intros V; try (left; eauto; fail); [destruct V|].
  apply tame_bind; [apply T|]. intros [a r] E. rewrite E in V. cbn [rbind] in V. apply tame_bind; [|intros [ls r'] _; left; eauto].
  apply IH. destruct (read_items J fuel (i + tls_size J a) n r); [exact I|exact I|exact V|exact V].
Qed.
Lemma schema_tame {A} (s : schema A) : sensible s -> forall bs, tame (tls_read (item_of s) bs).
Proof.
  induction s as [|w|A w code vs|n|A B s IHs t IHt|A B mk pt s IHs|A w tag s IHs|A s IHs mn mx]; intros W bs; cbn [item_of tls_read i_u8 i_num i_enum i_array i_pair i_map i_vec].
  - apply tame_bind; [apply tame_num|]. intros [x r] _. left. eauto.
  - apply tame_num.
  - apply tame_bind; [apply tame_num|]. intros [x r] _. destruct (from_code code vs x); [left; eauto|right; right; reflexivity].
  - unfold read_n. destruct (_ <=? _)%nat; [left; eauto|right; left; reflexivity].
  - apply tame_bind; [apply IHs, W|]. intros [a r] _. apply tame_bind; [apply IHt, W|]. intros [b r'] _. left. eauto.
  - apply tame_bind; [apply IHs; cbn [sensible] in W; tauto|]. intros [a r] _. left. eauto.
  - apply tame_bind; [apply tame_num|]. intros [x r] _. destruct (x =? tag); [apply IHs, W|right; right; reflexivity].
  - pose proof (proj2 (schema_codec (S_vector s mn mx) W)) as P. pose proof (pa_total _ _ P bs) as V. cbn [item_of tls_read i_vec] in V.
    destruct W as (M & Sm & Ws). apply tame_bind; [apply tame_num|]. intros [x r] E. rewrite E in V. cbn [rbind] in V.
    apply tame_bind.
    + apply tame_items; [apply IHs, Ws|]. destruct (read_items (item_of s) (S (length r)) 0 x r); [exact I|exact I|exact V|exact V].
    + intros [ls r'] _. destruct (negb _); [right; right; reflexivity|]. apply tame_bind; [|intros v _; left; eauto]. unfold vec_new.
      destruct (_ <? mn); [right; right; reflexivity|]. destruct (mx <? _); [right; right; reflexivity|left; eauto].
Qed.
Theorem schema_exact A (s : schema A) : sensible s -> exact_item s.
Proof.
  intros W. destruct (schema_codec s W) as [C P]. split; [|split].
  - intros v B. split; [exact (co_write _ _ _ C v B)|exact (co_size _ _ _ C v B)].
  - intros bs v rest. split.
    + intros R. pose proof (pa_wf _ _ P _ _ _ R) as B. split; [exact B|exact (parser_canon_wf _ _ _ _ _ _ _ P C R B)].
    + intros [B ->]. exact (co_read _ _ _ C v rest B).
  - intros bs. destruct (schema_tame s W bs) as [[[v rest] E]|[E|E]]; [left; eauto|right; left; exact E|right; right; exact E].
Qed.

Lemma layout_unique A (s : schema A) v w r q : sensible s -> belongs s v -> belongs s w -> layout s v ++ r = layout s w ++ q -> v = w /\ r = q.
Proof.
  intros W Bv Bw E. destruct (schema_exact A s W) as (_ & R & _). pose proof (proj2 (R _ v r) (conj Bv eq_refl)) as A1. pose proof (proj2 (R _ w q) (conj Bw eq_refl)) as A2.
  rewrite E, A2 in A1. injection A1 as <- <-. split; reflexivity.
Qed.
Lemma belongs_length A (s : schema A) v : sensible s -> belongs s v -> smallest s <= zlen (layout s v).
Proof. intros W B. rewrite <- (co_size _ _ _ (proj1 (schema_codec s W)) v B). apply smallest_least, W. Qed.
(** the width of the length is the least that can hold it *)
Lemma width_least most : 0 <= most < 2 ^ 32 -> most < 256 ^ Z.of_nat (vec_width most) /\ forall w, most < 256 ^ Z.of_nat w -> (0 < w -> vec_width most <= w)%nat.
Proof.
  intros M. split; [apply vec_width_ok; lia|]. intros w H W. rewrite (width_agrees most M). unfold length_width.
  destruct (Z.eq_dec most 0) as [->|N]; [cbn; lia|]. change 256 with (2 ^ 8) in H. rewrite <- Z.pow_mul_r in H by lia. apply Z.log2_lt_pow2 in H; lia.
Qed.
Lemma width_wasted : exists most, 0 <= most < 2 ^ 64 /\ exists w, most < 256 ^ Z.of_nat w /\ (0 < w < vec_width most)%nat.
Proof. exists (2 ^ 32). split; [lia|]. exists 5%nat. split; [reflexivity|]. vm_compute. lia. Qed.
Lemma empty_elements : exists s : schema bytes, sensible s /\ tls_read (i_vec (item_of s) 0 255) [x01] = Diverge /\ forall fuel, read_items (item_of s) fuel 0 1 [] = Diverge.
Proof.
  exists (S_array 0). split; [exact I|]. split; [reflexivity|]. cbn [item_of]. induction fuel as [|n IH]; [reflexivity|]. cbn [read_items Z.ltb Z.compare i_array tls_read tls_size rbind read_n].
  change (0 + Z.of_nat 0) with 0. change (read_n 0 []) with (Ok (@nil byte, @nil byte)). cbn [rbind]. rewrite IH. reflexivity.
Qed.
Lemma crate_schemas :
  (item_of s_alert_level = i_alert_level /\ item_of s_alert_desc = i_alert_desc /\ item_of s_alert = i_alert /\ item_of s_hash_alg = i_hash_alg /\ item_of s_sig_alg = i_sig_alg /\
   item_of s_sig_hash = i_sig_hash /\ item_of s_sig_hash_vec = i_sig_hash_vec /\ item_of s_signature = i_signature /\ item_of s_digitally_signed = i_digitally_signed) /\
  (item_of s_random = i_random /\ item_of s_compression = i_compression /\ item_of s_compression_vec = i_compression_vec /\ item_of s_version = i_version /\
   item_of s_session_id = i_session_id /\ item_of s_asn1_cert = i_asn1_cert /\ item_of s_named_curve = i_named_curve /\ item_of s_curve_list = i_curve_list /\
   item_of s_point_format = i_point_format /\ item_of s_point_format_list = i_point_format_list /\ item_of s_certificate_list = i_certificate_list) /\
  (item_of s_cert_type = i_cert_type /\ item_of s_cert_type_vec = i_cert_type_vec /\ item_of s_dn = i_dn /\ item_of s_dn_vec = i_dn_vec /\ item_of s_cert_request = i_cert_request /\
   item_of s_verify_data = i_verify_data /\ item_of s_ec_data = i_ec_data /\ item_of s_ec_curve = i_ec_curve /\ item_of s_ec_parameters = i_ec_parameters /\ item_of s_ske = i_ske).
Proof. split; [|split]; repeat (split; [reflexivity|]); reflexivity. Qed.
Ltac enum_sensible := split; [intros []; cbn; tauto|split; [intros [] []; try reflexivity; discriminate|intros []; cbn; lia]].
Lemma ss_alert_level : sensible s_alert_level. Proof. enum_sensible. Qed.
Lemma ss_alert_desc : sensible s_alert_desc. Proof. enum_sensible. Qed.
Lemma ss_hash_alg : sensible s_hash_alg. Proof. enum_sensible. Qed.
Lemma ss_sig_alg : sensible s_sig_alg. Proof. enum_sensible. Qed.
Lemma ss_compression : sensible s_compression. Proof. enum_sensible. Qed.
Lemma ss_named_curve : sensible s_named_curve. Proof. enum_sensible. Qed.
Lemma ss_point_format : sensible s_point_format. Proof. enum_sensible. Qed.
Lemma ss_cert_type : sensible s_cert_type. Proof. enum_sensible. Qed.
Lemma ss_vector {A} (s : schema A) mn mx : 0 <= mx < 2 ^ 32 -> 1 <= smallest s -> sensible s -> sensible (S_vector s mn mx).
Proof. intros. split; [|split]; assumption. Qed.
Lemma ss_sig_hash : sensible s_sig_hash.
Proof. split; [intros []; reflexivity|]. split; [intros []; reflexivity|]. split; [exact ss_hash_alg|exact ss_sig_alg]. Qed.
Lemma ss_alert : sensible s_alert.
Proof. split; [intros []; reflexivity|]. split; [intros []; reflexivity|]. split; [exact ss_alert_level|exact ss_alert_desc]. Qed.
Lemma ss_opaque mn mx : 0 <= mx < 2 ^ 32 -> sensible (S_vector S_u8 mn mx). Proof. intros. apply ss_vector; [assumption|discriminate|exact I]. Qed.
Lemma ss_sig_hash_vec : sensible s_sig_hash_vec. Proof. apply ss_vector; [lia|discriminate|exact ss_sig_hash]. Qed.
Lemma ss_digitally_signed : sensible s_digitally_signed.
Proof. split; [intros []; reflexivity|]. split; [intros []; reflexivity|]. split; [exact ss_sig_hash|apply ss_opaque; lia]. Qed.
Lemma ss_certificate_list : sensible s_certificate_list.
Proof. apply ss_vector; [lia|discriminate|apply ss_opaque; lia]. Qed.
Lemma ss_dn_vec : sensible s_dn_vec. Proof. apply ss_vector; [lia|discriminate|apply ss_opaque; lia]. Qed.
Lemma ss_cert_request : sensible s_cert_request.
Proof.
  split; [intros []; reflexivity|]. split; [intros [t [a c]]; reflexivity|]. split; [apply ss_vector; [lia|discriminate|exact ss_cert_type]|]. split; [exact ss_sig_hash_vec|exact ss_dn_vec].
Qed.
Lemma ss_ec_parameters : sensible s_ec_parameters. Proof. split; [cbn; lia|exact ss_named_curve]. Qed.
Lemma ss_ske : sensible s_ske.
Proof. split; [intros []; reflexivity|]. split; [intros [[c p] s]; reflexivity|]. split; [|exact ss_digitally_signed]. split; [exact ss_ec_parameters|apply ss_opaque; lia]. Qed.
Lemma crate_sensible :
  (sensible s_alert_level /\ sensible s_alert_desc /\ sensible s_alert /\ sensible s_hash_alg /\ sensible s_sig_alg /\ sensible s_sig_hash /\ sensible s_sig_hash_vec /\ sensible s_signature /\ sensible s_digitally_signed) /\
  (sensible s_random /\ sensible s_compression /\ sensible s_compression_vec /\ sensible s_version /\ sensible s_session_id /\ sensible s_asn1_cert /\ sensible s_named_curve /\ sensible s_curve_list /\
   sensible s_point_format /\ sensible s_point_format_list /\ sensible s_certificate_list) /\
  (sensible s_cert_type /\ sensible s_cert_type_vec /\ sensible s_dn /\ sensible s_dn_vec /\ sensible s_cert_request /\ sensible s_verify_data /\ sensible s_ec_data /\ sensible s_ec_curve /\ sensible s_ec_parameters /\ sensible s_ske).
Proof.
  split; [|split].
  - refine (conj ss_alert_level (conj ss_alert_desc (conj ss_alert (conj ss_hash_alg (conj ss_sig_alg (conj ss_sig_hash (conj ss_sig_hash_vec (conj _ ss_digitally_signed)))))))). apply ss_opaque; lia.
  - split; [exact I|]. split; [exact ss_compression|]. split; [apply ss_vector; [lia|discriminate|exact ss_compression]|]. split; [split; [intros []; reflexivity|split; [intros []; reflexivity|split; exact I]]|].
    split; [apply ss_opaque; lia|]. split; [apply ss_opaque; lia|]. split; [exact ss_named_curve|]. split; [apply ss_vector; [lia|discriminate|exact ss_named_curve]|].
    split; [exact ss_point_format|]. split; [apply ss_vector; [lia|discriminate|exact ss_point_format]|exact ss_certificate_list].
  - split; [exact ss_cert_type|]. split; [apply ss_vector; [lia|discriminate|exact ss_cert_type]|]. split; [apply ss_opaque; lia|]. split; [exact ss_dn_vec|]. split; [exact ss_cert_request|]. split; [exact I|].
    split; [apply ss_opaque; lia|]. split; [split; [intros []; reflexivity|split; [intros []; reflexivity|split; apply ss_opaque; lia]]|]. split; [exact ss_ec_parameters|exact ss_ske].
Qed.
Lemma schema_sized A (s : schema A) v w : filled s v -> tls_write (item_of s) v = Ok w -> tls_size (item_of s) v = zlen w.
Proof.
  intros F E. symmetry. revert v w F E. change (sized (item_of s) (filled s)).
  induction s as [|w|A w code vs|n|A B s IHs t IHt|A B mk pt s IHs|A w tag s IHs|A s IHs mn mx].
  - exact sized_u8.
  - intros a x _ E. injection E as <-. apply zlen_be.
  - exact (sized_enum w code vs).
  - exact (sized_array n).
  - exact (sized_pair _ _ _ _ IHs IHt).
  - exact (sized_map _ _ _ _ IHs).
  - intros a x F E. cbn [item_of tls_write] in E. apply rbind_ok in E as (b & Eb & E). injection E as <-. cbn [item_of tls_size]. unfold wr_num. rewrite zlen_app, zlen_be, (IHs a b F Eb). reflexivity.
  - exact (sized_vec _ _ mn mx IHs).
Qed.
