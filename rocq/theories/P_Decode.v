(** Proofs about the codecs: which errors reading returns, and what a cut message leads to. *)
From Verif Require Import Spec_Client4 P_Codec.
From Coq Require Import ZifyBool ZifyNat ZifyN.
Local Open Scope list_scope.
Local Open Scope Z_scope.

(** ** Kinds of error *)
Definition kinds {A} (I : item A) : Prop := forall bs k, tls_read I bs = Err k -> k = IoFailure \/ k = DecodeError.
Lemma rbind_err {A B} (r : res A) (f : A -> res B) k : rbind r f = Err k -> r = Err k \/ exists a, r = Ok a /\ f a = Err k.
Proof. destruct r; cbn [rbind]; intros H; try discriminate H; [right; eauto|left; congruence]. Qed.
Lemma read_n_err n bs k : read_n n bs = Err k -> k = IoFailure.
Proof. unfold read_n. destruct (_ <=? _)%nat; [discriminate|]. congruence. Qed.
Lemma rd_num_err w bs k : rd_num w bs = Err k -> k = IoFailure.
Proof. unfold rd_num. intros H. apply rbind_err in H as [H|([x r] & _ & H)]; [eapply read_n_err; exact H|discriminate]. Qed.
Lemma kinds_u8 : kinds i_u8.
Proof. intros bs k H. apply rbind_err in H as [H|([x r] & _ & H)]; [left; eapply rd_num_err; exact H|discriminate]. Qed.
Lemma kinds_num w : kinds (i_num w).
Proof. intros bs k H. left. eapply rd_num_err. exact H. Qed.
Lemma kinds_array n : kinds (i_array n).
Proof. intros bs k H. left. eapply read_n_err. exact H. Qed.
Lemma kinds_pair {A B} (IA : item A) (IB : item B) : kinds IA -> kinds IB -> kinds (i_pair IA IB).
Proof.
  intros HA HB bs k H. cbn [tls_read i_pair] in H. apply rbind_err in H as [H|([a r] & _ & H)]; [apply HA in H; exact H|].
  apply rbind_err in H as [H|([b r'] & _ & H)]; [apply HB in H; exact H|discriminate].
Qed.
Lemma kinds_map {A B} (f : A -> B) g (IA : item A) : kinds IA -> kinds (i_map f g IA).
Proof. intros HA bs k H. cbn [tls_read i_map] in H. apply rbind_err in H as [H|([a r] & _ & H)]; [apply HA in H; exact H|discriminate]. Qed.
Lemma kinds_enum {A} w (code : A -> Z) all : kinds (i_enum w code all).
Proof.
  intros bs k H. cbn [tls_read i_enum] in H. apply rbind_err in H as [H|([n r] & _ & H)]; [left; eapply rd_num_err; exact H|].
  destruct (from_code code all n); [discriminate|]. right. congruence.
Qed.
Lemma kinds_items {A} (I : item A) : kinds I -> forall f s t bs k, read_items I f s t bs = Err k -> k = IoFailure \/ k = DecodeError.
Proof.
  intros HI. induction f as [|f IH]; intros s t bs k; cbn [read_items]; destruct (s <? t); try discriminate.
  intros H. apply rbind_err in H as [H|([a r] & _ & H)]; [apply HI in H; exact H|].
  apply rbind_err in H as [H|([b r'] & _ & H)]; [apply IH in H; exact H|discriminate].
Qed.
Lemma kinds_vec {A} (I : item A) mn mx : kinds I -> kinds (i_vec I mn mx).
Proof.
  intros HI bs k H. cbn [tls_read i_vec] in H. apply rbind_err in H as [H|([n r] & _ & H)]; [left; eapply rd_num_err; exact H|].
  apply rbind_err in H as [H|([ls r'] & _ & H)]; [eapply kinds_items; eauto|].
  destruct (negb _); [right; congruence|]. apply rbind_err in H as [H|(v & _ & H)]; [|discriminate].
  unfold vec_new in H. destruct (_ <? _); [right; congruence|]. destruct (_ <? _); [right; congruence|discriminate].
Qed.
Lemma kinds_option {A} (I : item A) : kinds I -> kinds (i_option I).
Proof.
  intros HI bs k H. cbn [tls_read i_option] in H. destruct bs; [discriminate|].
  apply rbind_err in H as [H|([a r] & _ & H)]; [apply HI in H; exact H|discriminate].
Qed.
Lemma kinds_suite : kinds i_cipher_suite.
Proof.
  intros bs k H. cbn [tls_read i_cipher_suite] in H. apply rbind_err in H as [H|([n r] & _ & H)]; [left; eapply rd_num_err; exact H|].
  apply rbind_err in H as [H|([n' r'] & _ & H)]; [left; eapply rd_num_err; exact H|]. destruct (_ && _); discriminate.
Qed.
Lemma kinds_sig_hash : kinds i_sig_hash.
Proof. apply kinds_map, kinds_pair; apply kinds_enum. Qed.
Lemma kinds_ext : kinds i_extension.
Proof.
  intros bs k H. cbn [tls_read i_extension] in H. unfold ext_read in H.
  apply rbind_err in H as [H|([n r] & _ & H)]; [left; eapply rd_num_err; exact H|].
  apply rbind_err in H as [H|([z r'] & _ & H)]; [left; eapply rd_num_err; exact H|].
  assert (G : forall A (I : item A) mk, kinds I -> ext_read_body I mk z r' = Err k -> k = IoFailure \/ k = DecodeError).
  { intros A I mk HI E. unfold ext_read_body in E. apply rbind_err in E as [E|([b r2] & _ & E)]; [apply HI in E; exact E|].
    destruct (negb _); [right; congruence|discriminate]. }
  repeat (match type of H with (if ?c then _ else _) = _ => destruct c end).
  - eapply G; [|exact H]. apply kinds_vec, kinds_enum.
  - eapply G; [|exact H]. apply kinds_vec, kinds_enum.
  - eapply G; [|exact H]. apply kinds_vec, kinds_sig_hash.
  - apply rbind_err in H as [H|([d r2] & _ & H)]; [left; eapply read_n_err; exact H|discriminate].
Qed.
Lemma kinds_dummy : kinds i_dummy.
Proof. intros bs k H. discriminate H. Qed.
Lemma kinds_obscure : kinds i_obscure.
Proof. intros bs k H. discriminate H. Qed.
Ltac kinds_tac := repeat first [apply kinds_map | apply kinds_pair | apply kinds_vec | apply kinds_option | apply kinds_u8 | apply kinds_num
  | apply kinds_array | apply kinds_suite | apply kinds_ext | apply kinds_sig_hash | apply kinds_enum].
Lemma kinds_client_hello : kinds i_client_hello. Proof. unfold i_client_hello. kinds_tac. Qed.
Lemma kinds_server_hello : kinds i_server_hello. Proof. unfold i_server_hello. kinds_tac. Qed.
Lemma kinds_cert_list : kinds i_certificate_list. Proof. unfold i_certificate_list. kinds_tac. Qed.
Lemma kinds_cert_request : kinds i_cert_request. Proof. unfold i_cert_request. kinds_tac. Qed.
Lemma kinds_verify_data : kinds i_verify_data. Proof. unfold i_verify_data. kinds_tac. Qed.
Lemma kinds_ec_parameters : kinds i_ec_parameters.
Proof.
  intros bs k H. cbn [tls_read i_ec_parameters] in H. apply rbind_err in H as [H|([n r] & _ & H)]; [left; eapply rd_num_err; exact H|].
  destruct (n =? 3); [eapply kinds_enum; exact H|right; congruence].
Qed.
Lemma kinds_ske : kinds i_ske.
Proof. unfold i_ske. apply kinds_map, kinds_pair; [apply kinds_pair; [apply kinds_ec_parameters|]|]; kinds_tac. Qed.

Definition body_kind (ty : Z) (k : errkind) : Prop :=
  k = IoFailure \/ k = DecodeError \/ k = UnexpectedMessage /\ ~ In ty known_hs_types.
Lemma hs_body_kinds ty bs k : hs_read_ty ty bs = Err k -> body_kind ty k.
Proof.
  unfold hs_read_ty.
  assert (G : forall A (I : item A) mk, kinds I -> hs_read_body I mk bs = Err k -> body_kind ty k).
  { intros A I mk HI E. unfold hs_read_body in E. apply rbind_err in E as [E|([b r2] & _ & E)]; [apply HI in E; unfold body_kind; tauto|discriminate]. }
  repeat (match goal with |- (if ?a =? ?b then _ else _) = _ -> _ => destruct (Z.eqb_spec a b) end);
    try (apply G; first [apply kinds_dummy|apply kinds_client_hello|apply kinds_server_hello|apply kinds_cert_list|apply kinds_obscure|apply kinds_cert_request|apply kinds_verify_data]).
  intros E. right. right. split; [congruence|]. unfold known_hs_types. cbn [In]. lia.
Qed.
(** an announced and complete message that is refused *)
Lemma message_kinds ty body rest k : zlen body < 2 ^ 24 -> fst (get_message (frame ty body ++ rest)) = Err k ->
  k = IoFailure \/ k = DecodeError \/ k = UnexpectedMessage /\ ~ In (b2z ty) known_hs_types \/
  k = InternalError /\ exists h b r, hs_read_ty (b2z ty) body = Ok (h, b :: r).
Proof.
  intros L. pose proof (zlen_nonneg body). unfold frame, sp_vec. cbn [app].
  change (ty :: (be 3 (zlen body) ++ body) ++ rest) with ((ty :: be 3 (zlen body) ++ body) ++ rest).
  rewrite get_message_framed by (lia || reflexivity). cbn [fst].
  destruct (be3_bytes (zlen body) ltac:(lia)) as (x & y & z & E3 & _). rewrite E3. cbn [app].
  unfold hs_read.
  assert (R1 : forall b l, rd_num 1 (b :: l) = Ok (b2z b, l)) by (intros b l; reflexivity).
  rewrite R1. cbn [rbind]. rewrite R1. cbn [rbind]. rewrite R1. cbn [rbind]. rewrite R1. cbn [rbind].
  destruct (hs_read_ty (b2z ty) body) as [[h r]|k'| |] eqn:E; cbn [rbind].
  - destruct r as [|b r]; [discriminate|]. rewrite R1. intros H0. injection H0 as <-. right. right. right. split; [reflexivity|]. eauto.
  - intros H0. injection H0 as ->. apply hs_body_kinds in E as [?|[?|?]]; auto.
  - discriminate.
  - discriminate.
Qed.
Lemma get_message_kinds buf k : fst (get_message buf) = Err k -> k = IoFailure \/ k = DecodeError \/ k = UnexpectedMessage \/ k = InternalError.
Proof.
  destruct (buffer_cases buf) as [H|[(ty & n & body & R & L & ->)|(ty & n & body & rest & R & L & ->)]].
  - rewrite get_message_short by exact H. discriminate.
  - rewrite get_message_incomplete by assumption. discriminate.
  - intros E. assert (E' : fst (get_message (frame ty body ++ rest)) = Err k) by (unfold frame, sp_vec; rewrite L; exact E).
    apply message_kinds in E' as [?|[?|[[? _]|[? _]]]]; auto. lia.
Qed.

(** ** Cut input *)
Definition streaming {A} (I : item A) : Prop := forall p q a rest, tls_read I (p ++ q) = Ok (a, rest) ->
  (exists p', rest = p' ++ q /\ tls_read I p = Ok (a, p')) \/ ((length rest < length q)%nat /\ tls_read I p = Err IoFailure).
Lemma read_n_cut n p q x rest : read_n n (p ++ q) = Ok (x, rest) ->
  (exists p', rest = p' ++ q /\ read_n n p = Ok (x, p')) \/ ((length rest < length q)%nat /\ read_n n p = Err IoFailure).
Proof.
  intros H. pose proof H as H0. apply read_n_inv in H0 as [E L]. unfold read_n in *.
  destruct (Nat.leb_spec n (length p)).
  - left. assert (Hf : firstn n (p ++ q) = firstn n p) by (rewrite firstn_app; replace (n - length p)%nat with 0%nat by lia; apply app_nil_r).
    assert (Hs : skipn n (p ++ q) = skipn n p ++ q) by (rewrite skipn_app; replace (n - length p)%nat with 0%nat by lia; reflexivity).
    rewrite Hf, Hs in H. destruct (_ <=? _)%nat; [|discriminate]. exists (skipn n p).
    apply (f_equal (fun r => match r with Ok y => y | _ => (x, rest) end)) in H. apply pair_equal_spec in H as [H1 H2]. rewrite H1. auto.
  - right. split; [|reflexivity]. apply (f_equal (@length byte)) in E. rewrite !app_length in E. lia.
Qed.
Lemma rd_num_cut w p q x rest : rd_num w (p ++ q) = Ok (x, rest) ->
  (exists p', rest = p' ++ q /\ rd_num w p = Ok (x, p')) \/ ((length rest < length q)%nat /\ rd_num w p = Err IoFailure).
Proof.
  unfold rd_num. intros H. apply rbind_ok in H as ([y r] & H & E). injection E as <- <-.
  apply read_n_cut in H as [(p' & -> & ->)|(L & ->)]; [left; exists p'; auto|right; auto].
Qed.
Lemma streaming_u8 : streaming i_u8.
Proof.
  intros p q a rest H. cbn [tls_read i_u8] in *. apply rbind_ok in H as ([y r] & H & E). injection E as <- <-.
  apply rd_num_cut in H as [(p' & -> & ->)|(L & ->)]; [left; exists p'; auto|right; auto].
Qed.
Lemma streaming_num w : streaming (i_num w).
Proof. intros p q a rest H. apply rd_num_cut. exact H. Qed.
Lemma streaming_array n : streaming (i_array n).
Proof. intros p q a rest H. apply read_n_cut. exact H. Qed.
Lemma streaming_enum {A} w (code : A -> Z) all : streaming (i_enum w code all).
Proof.
  intros p q a rest H. cbn [tls_read i_enum] in *. apply rbind_ok in H as ([y r] & H & E).
  destruct (from_code code all y) eqn:F; [|discriminate]. injection E as <- <-.
  apply rd_num_cut in H as [(p' & -> & ->)|(L & ->)]; cbn [rbind]; [left; exists p'; rewrite F; auto|right; auto].
Qed.
Lemma streaming_map {A B} (f : A -> B) g (IA : item A) : streaming IA -> streaming (i_map f g IA).
Proof.
  intros S p q a rest H. cbn [tls_read i_map] in *. apply rbind_ok in H as ([y r] & H & E). injection E as <- <-.
  apply S in H as [(p' & -> & ->)|(L & ->)]; [left; exists p'; auto|right; auto].
Qed.
Definition shrinks {A} (I : item A) : Prop := forall bs a rest, tls_read I bs = Ok (a, rest) -> (length rest <= length bs)%nat.
Lemma parser_shrinks {A} (I : item A) pwf : parser I pwf -> shrinks I.
Proof. intros P bs a rest H. apply (pa_canon _ _ P) in H as (w & -> & _). rewrite app_length. lia. Qed.
Lemma streaming_pair {A B} (IA : item A) (IB : item B) : streaming IA -> streaming IB -> shrinks IB -> streaming (i_pair IA IB).
Proof.
  intros SA SB Sh p q [a b] rest H. cbn [tls_read i_pair] in *. apply rbind_ok in H as ([a0 r] & H & E).
  apply rbind_ok in E as ([b0 r'] & H' & E). injection E as <- <- <-.
  apply SA in H as [(p' & -> & ->)|(L & ->)]; cbn [rbind].
  - apply SB in H' as [(p2 & -> & ->)|(L & ->)]; cbn [rbind]; [left; exists p2; auto|right; auto].
  - right. split; [|reflexivity]. apply Sh in H'. lia.
Qed.
Lemma streaming_items {A} (I : item A) pwf : parser I pwf -> (forall a, 1 <= tls_size I a) -> streaming I ->
  forall f f' s t p q ls rest, read_items I f s t (p ++ q) = Ok (ls, rest) -> (length p < f')%nat ->
  (exists p', rest = p' ++ q /\ read_items I f' s t p = Ok (ls, p')) \/ ((length rest < length q)%nat /\ read_items I f' s t p = Err IoFailure).
Proof.
  intros P S1 St. induction f as [|f IH]; intros f' s t p q ls rest H L; (destruct f' as [|f']; [lia|]); cbn [read_items] in *.
  - destruct (s <? t); [discriminate|]. injection H as <- <-. left. exists p. auto.
  - destruct (s <? t); [|injection H as <- <-; left; exists p; auto].
    apply rbind_ok in H as ([a r] & HA & H). apply rbind_ok in H as ([l r'] & HL & E).
    apply (f_equal (fun y => match y with Ok z => z | _ => (ls, rest) end)) in E. apply pair_equal_spec in E as [<- <-].
    pose proof HA as HA0. apply St in HA as [(p' & -> & HA)|(Lr & ->)]; cbn [rbind].
    + rewrite HA. cbn [rbind].
      assert (L' : (length p' < f')%nat).
      { apply (pa_canon _ _ P) in HA as (w & -> & LW & _). pose proof (S1 a). rewrite app_length in L. unfold zlen in LW. lia. }
      apply (IH f') in HL as [(p2 & -> & ->)|(L2 & ->)]; cbn [rbind]; [left; exists p2; auto|right; auto|exact L'].
    + right. split; [|reflexivity]. destruct l as [l z]. apply (read_items_canon I pwf P) in HL as (_ & _ & w & -> & _). rewrite app_length in Lr. lia.
Qed.
Lemma streaming_vec {A} (I : item A) pwf mn mx : parser I pwf -> (forall a, 1 <= tls_size I a) -> streaming I -> streaming (i_vec I mn mx).
Proof.
  intros P S1 St p q a rest H. cbn [tls_read i_vec] in *. apply rbind_ok in H as ([n r] & HN & H). apply rbind_ok in H as ([ls r'] & HL & H).
  destruct (negb (snd ls =? n)) eqn:En; [discriminate|]. apply rbind_ok in H as (v & HV & E). injection E as <- <-.
  apply rd_num_cut in HN as [(p' & -> & ->)|(L & ->)]; cbn [rbind].
  - apply (streaming_items I pwf P S1 St) with (f' := S (length p')) in HL; [|lia].
    destruct HL as [(p2 & -> & ->)|(L & ->)]; cbn [rbind]; [|right; auto]. left. exists p2. split; [reflexivity|]. rewrite En, HV. reflexivity.
  - right. split; [|reflexivity]. destruct ls as [l z]. apply (read_items_canon I pwf P) in HL as (_ & _ & w & -> & _). rewrite app_length in L. lia.
Qed.
Lemma streaming_suite : streaming i_cipher_suite.
Proof.
  intros p q a rest H. cbn [tls_read i_cipher_suite] in *. apply rbind_ok in H as ([n r] & HN & H). apply rbind_ok in H as ([n' r'] & HN' & H).
  pose proof HN' as I1. apply rd_num_inv in I1 as [I1 _].
  apply rd_num_cut in HN as [(p' & -> & ->)|(L & ->)]; cbn [rbind].
  - apply rd_num_cut in HN' as [(p2 & -> & ->)|(L & ->)]; cbn [rbind].
    + left. exists p2. destruct (_ && _); injection H as <- <-; auto.
    + right. split; [|reflexivity]. destruct (_ && _); injection H as <- <-; exact L.
  - right. split; [|reflexivity]. rewrite I1, app_length in L. destruct (_ && _); injection H as <- <-; lia.
Qed.
Lemma streaming_ext : streaming i_extension.
Proof.
  intros p q a rest H. cbn [tls_read i_extension] in *. unfold ext_read in *. apply rbind_ok in H as ([n r] & HN & H). apply rbind_ok in H as ([z r'] & HN' & H).
  assert (Sh : (length rest <= length r')%nat).
  { assert (G : forall A (I : item A) mk, shrinks I -> ext_read_body I mk z r' = Ok (a, rest) -> (length rest <= length r')%nat).
    { intros A I mk HI E. unfold ext_read_body in E. apply rbind_ok in E as ([b r2] & E1 & E). destruct (negb _); [discriminate|]. injection E as <- <-. eapply HI; exact E1. }
    repeat (match type of H with (if ?c then _ else _) = _ => destruct c end).
    - eapply G; [|exact H]. eapply parser_shrinks, parser_curve_list.
    - eapply G; [|exact H]. eapply parser_shrinks, parser_format_list.
    - eapply G; [|exact H]. eapply parser_shrinks, parser_sig_hash_vec.
    - apply rbind_ok in H as ([d r2] & H & E). injection E as <- <-. apply read_n_inv in H as [-> _]. rewrite app_length. lia. }
  pose proof HN' as I1. apply rd_num_inv in I1 as [I1 _].
  apply rd_num_cut in HN as [(p' & -> & ->)|(L & ->)]; cbn [rbind].
  2:{ right. split; [|reflexivity]. rewrite I1, app_length in L. lia. }
  apply rd_num_cut in HN' as [(p2 & -> & ->)|(L & ->)]; cbn [rbind].
  2:{ right. split; [|reflexivity]. lia. }
  clear I1 Sh.
  assert (G : forall A (I : item A) mk, streaming I -> ext_read_body I mk z (p2 ++ q) = Ok (a, rest) ->
    (exists p3, rest = p3 ++ q /\ ext_read_body I mk z p2 = Ok (a, p3)) \/ ((length rest < length q)%nat /\ ext_read_body I mk z p2 = Err IoFailure)).
  { intros A I mk HI E. unfold ext_read_body in *. apply rbind_ok in E as ([b r2] & E1 & E). destruct (negb _) eqn:En; [discriminate|]. injection E as <- <-.
    apply HI in E1 as [(p3 & -> & ->)|(L & ->)]; cbn [rbind]; [left; exists p3; rewrite En; auto|right; auto]. }
  repeat (match type of H with (if ?c then _ else _) = _ => destruct c end).
  - eapply G; [|exact H]. eapply streaming_vec; [apply parser_enum|cbn; lia|apply streaming_enum].
  - eapply G; [|exact H]. eapply streaming_vec; [apply parser_enum|cbn; lia|apply streaming_enum].
  - eapply G; [|exact H]. eapply streaming_vec; [apply parser_sig_hash|cbn; lia|].
    apply streaming_map, streaming_pair; [apply streaming_enum|apply streaming_enum|eapply parser_shrinks, parser_enum].
  - apply rbind_ok in H as ([d r2] & H & E). injection E as <- <-. apply read_n_cut in H as [(p3 & -> & ->)|(L & ->)]; cbn [rbind]; [left; exists p3; auto|right; auto].
Qed.

(** the last field may be absent *)
Definition half {A} (I : item A) (P : A -> A -> Prop) : Prop := forall p q a, tls_read I (p ++ q) = Ok (a, []) -> zlen (p ++ q) = tls_size I a -> q <> [] ->
  tls_read I p = Err IoFailure \/ exists a', tls_read I p = Ok (a', []) /\ P a a'.
Lemma half_option {A} (I : item A) pwf : parser I pwf -> streaming I -> half (i_option I) (fun o o' => o <> None /\ o' = None).
Proof.
  intros P St p q a H L Q. cbn [tls_read i_option tls_size] in *.
  destruct p as [|b p].
  - right. exists None. split; [reflexivity|]. split; [|reflexivity]. destruct q; [congruence|]. cbn [app] in H. apply rbind_ok in H as ([a0 r] & _ & E).
    injection E as <-. discriminate.
  - left. cbn [app] in H. change (b :: p ++ q) with ((b :: p) ++ q) in H. apply rbind_ok in H as ([a0 r] & H & E). injection E as <-.
    assert (r = []).
    { apply (pa_canon _ _ P) in H as (w & W & LW & _). rewrite W, zlen_app in L. unfold zlen in *. destruct r; [reflexivity|]. cbn [length] in L. lia. }
    subst r. apply St in H as [(p' & E & _)|(_ & ->)]; [|reflexivity]. destruct p', q; try discriminate E; congruence.
Qed.
Lemma half_pair {A B} (IA : item A) (IB : item B) pwf P : parser IA pwf -> streaming IA -> shrinks IB -> half IB P ->
  half (i_pair IA IB) (fun x y => fst x = fst y /\ P (snd x) (snd y)).
Proof.
  intros PA SA Sh HB p q [a b] H L Q. cbn [tls_read i_pair tls_size fst snd] in *. apply rbind_ok in H as ([a0 r] & H & E).
  apply rbind_ok in E as ([b0 r'] & H' & E). injection E as <- <- ->.
  pose proof H as H0. apply (pa_canon _ _ PA) in H0 as (w & W & LW & _).
  apply SA in H as [(p' & -> & ->)|(_ & ->)]; cbn [rbind]; [|auto].
  destruct (HB p' q b0 H') as [->|(b' & -> & Pb)]; cbn [rbind]; [|exact Q|auto|].
  - rewrite W, zlen_app in L. lia.
  - right. exists (a0, b'). auto.
Qed.
Lemma half_map {A B} (f : A -> B) g (IA : item A) P (R : B -> B -> Prop) : half IA P -> (forall a, g (f a) = a) -> (forall a a', P a a' -> R (f a) (f a')) -> half (i_map f g IA) R.
Proof.
  intros H G PR p q b E L Q. cbn [tls_read i_map tls_size] in *. apply rbind_ok in E as ([a r] & E & X). injection X as <- ->. rewrite G in L.
  destruct (H p q a E L Q) as [->|(a' & -> & Pa)]; cbn [rbind]; [auto|]. right. eauto.
Qed.
Lemma shrinks_pair {A B} (IA : item A) (IB : item B) : shrinks IA -> shrinks IB -> shrinks (i_pair IA IB).
Proof.
  intros SA SB bs [a b] rest H. cbn [tls_read i_pair] in H. apply rbind_ok in H as ([a0 r] & H & E). apply rbind_ok in E as ([b0 r'] & H' & E).
  injection E as <- <- <-. apply SA in H. apply SB in H'. lia.
Qed.
Lemma shrinks_option {A} (I : item A) : shrinks (i_option I).
Proof.
  intros bs a rest H. cbn [tls_read i_option] in H. destruct bs; [injection H as <- <-; auto|]. apply rbind_ok in H as ([a0 r] & H & E).
  injection E as <- <-. cbn. lia.
Qed.
Lemma streaming_opaque mn mx : streaming (i_vec i_u8 mn mx).
Proof. eapply streaming_vec; [apply parser_u8|cbn; lia|apply streaming_u8]. Qed.
Lemma half_exts : half i_extensions (fun o o' => o <> None /\ o' = None).
Proof.
  eapply half_option; [apply parser_ext_vec|]. eapply streaming_vec; [apply parser_ext|apply ext_size_pos|apply streaming_ext].
Qed.
Lemma streaming_version : streaming i_version.
Proof. apply streaming_map, streaming_pair; [apply streaming_u8|apply streaming_u8|eapply parser_shrinks, parser_u8]. Qed.
Lemma half_server_hello : half i_server_hello (fun a a' => sh_exts a <> None /\ server_hello_msg a' = without_extensions (server_hello_msg a)).
Proof.
  unfold i_server_hello. eapply half_map.
  - eapply half_pair; [apply parser_version|apply streaming_version| |].
    2: eapply half_pair; [apply (parser_array 32)|apply streaming_array| |].
    3: eapply half_pair; [apply parser_session|apply streaming_opaque| |].
    4: eapply half_pair; [apply parser_suite|apply streaming_suite| |].
    5: eapply half_pair; [apply (parser_enum 1 compression_code compression_all)|apply streaming_enum|apply shrinks_option|apply half_exts].
    all: repeat first [apply shrinks_option | apply shrinks_pair];
      try (eapply parser_shrinks; first [apply (parser_array 32)|apply parser_session|apply parser_suite|apply parser_enum]).
  - intros (v & r & s & c & e & x). reflexivity.
  - intros (v & r & s & c & e & x) (v' & r' & s' & c' & e' & x') H. cbn [fst snd] in H. destruct H as (-> & -> & -> & -> & -> & H & ->).
    cbn [sh_exts without_extensions sh_version sh_random sh_session sh_suite sh_comp]. auto.
Qed.
Lemma half_client_hello : half i_client_hello (fun a a' => ch_exts a <> None /\ client_hello_msg a' = without_extensions (client_hello_msg a)).
Proof.
  unfold i_client_hello. eapply half_map.
  - eapply half_pair; [apply parser_version|apply streaming_version| |].
    2: eapply half_pair; [apply (parser_array 32)|apply streaming_array| |].
    3: eapply half_pair; [apply parser_session|apply streaming_opaque| |].
    4: eapply half_pair; [apply parser_suite_vec|eapply streaming_vec; [apply parser_suite|cbn; lia|apply streaming_suite]| |].
    5: eapply half_pair; [apply parser_comp_vec|eapply streaming_vec; [apply parser_enum|cbn; lia|apply streaming_enum]|apply shrinks_option|apply half_exts].
    all: repeat first [apply shrinks_option | apply shrinks_pair];
      try (eapply parser_shrinks; first [apply (parser_array 32)|apply parser_session|apply parser_suite_vec|apply parser_comp_vec]).
  - intros (v & r & s & c & e & x). reflexivity.
  - intros (v & r & s & c & e & x) (v' & r' & s' & c' & e' & x') H. cbn [fst snd] in H. destruct H as (-> & -> & -> & -> & -> & H & ->).
    cbn [ch_exts without_extensions ch_version ch_random ch_session ch_suites ch_comps]. auto.
Qed.
Lemma streaming_cut {A} (I : item A) p q a : streaming I -> tls_read I (p ++ q) = Ok (a, []) -> q <> [] -> tls_read I p = Err IoFailure.
Proof. intros S H Q. apply S in H as [(p' & E & _)|(_ & H)]; [|exact H]. destruct p', q; try discriminate E; congruence. Qed.
Lemma streaming_cert_list : streaming i_certificate_list.
Proof. eapply streaming_vec; [apply parser_asn1|intros a; apply opaque_size_pos|apply streaming_opaque]. Qed.
Lemma streaming_cert_request : streaming i_cert_request.
Proof.
  apply streaming_map, streaming_pair; [|apply streaming_pair|apply shrinks_pair].
  - eapply streaming_vec; [apply parser_enum|cbn; lia|apply streaming_enum].
  - eapply streaming_vec; [apply parser_sig_hash|cbn; lia|].
    apply streaming_map, streaming_pair; [apply streaming_enum|apply streaming_enum|eapply parser_shrinks, parser_enum].
  - eapply streaming_vec; [apply parser_dn|intros a; apply opaque_size_pos|apply streaming_opaque].
  - eapply parser_shrinks, parser_dn_vec.
  - eapply parser_shrinks, parser_sig_hash_vec.
  - eapply parser_shrinks, parser_dn_vec.
Qed.

(** the body of a message, cut short *)
Lemma cut_body h p q : wf_hs_body h -> e_hs_body h = p ++ q -> q <> [] -> ~ opaque_body h ->
  hs_read_ty (hs_type h) p = Err IoFailure \/ hs_read_ty (hs_type h) p = Ok (without_extensions h, []) /\ without_extensions h <> h.
Proof.
  intros W E Q O. destruct h; cbn [hs_type e_hs_body wf_hs_body opaque_body] in *; try (exfalso; apply O; exact I);
    unfold hs_read_ty; cbn [Z.eqb Pos.eqb]; unfold hs_read_body.
  - destruct p, q; try discriminate E; congruence.
  - destruct (half_client_hello p q b) as [->|(b' & -> & N & X)]; [|rewrite <- E; symmetry; apply codec_client_hello; exact W|exact Q|auto|].
    + rewrite <- E. apply codec_client_hello. exact W.
    + right. cbn [rbind]. rewrite X. split; [reflexivity|]. intros F. cbn [without_extensions] in F. injection F as F. rewrite <- F in N. cbn in N. congruence.
  - destruct (half_server_hello p q b) as [->|(b' & -> & N & X)]; [|rewrite <- E; symmetry; apply codec_server_hello; exact W|exact Q|auto|].
    + rewrite <- E. apply codec_server_hello. exact W.
    + right. cbn [rbind]. rewrite X. split; [reflexivity|]. intros F. cbn [without_extensions] in F. injection F as F. rewrite <- F in N. cbn in N. congruence.
  - left. rewrite (streaming_cut i_certificate_list p q b streaming_cert_list); [reflexivity| |exact Q].
    rewrite <- E. exact (cl_read _ _ _ (codec_to_last _ _ _ codec_cert_list) _ W).
  - left. rewrite (streaming_cut i_cert_request p q b streaming_cert_request); [reflexivity| |exact Q].
    rewrite <- E. exact (cl_read _ _ _ (codec_to_last _ _ _ codec_cert_request) _ W).
  - destruct p, q; try discriminate E; congruence.
  - left. change i_verify_data with (i_array 12). rewrite (streaming_cut (i_array 12) p q b (streaming_array 12)); [reflexivity| |exact Q].
    rewrite <- E. exact (cl_read _ _ _ (codec_to_last _ _ _ (codec_array 12)) _ W).
Qed.
Lemma framed_message ty body rest : zlen body < 2 ^ 24 ->
  get_message (frame ty body ++ rest) =
  (match hs_read_ty (b2z ty) body with
   | Ok (h, []) => Ok (Some h) | Ok (_, _ :: _) => Err InternalError | Err k => Err k | Panic => Panic | Diverge => Diverge end, rest).
Proof.
  intros L. pose proof (zlen_nonneg body). unfold frame, sp_vec. cbn [app].
  change (ty :: (be 3 (zlen body) ++ body) ++ rest) with ((ty :: be 3 (zlen body) ++ body) ++ rest).
  rewrite get_message_framed by (lia || reflexivity).
  destruct (be3_bytes (zlen body) ltac:(lia)) as (x & y & z & E3 & _). rewrite E3. cbn [app].
  unfold hs_read.
  assert (R1 : forall b l, rd_num 1 (b :: l) = Ok (b2z b, l)) by (intros b l; reflexivity).
  rewrite R1. cbn [rbind]. rewrite R1. cbn [rbind]. rewrite R1. cbn [rbind]. rewrite R1. cbn [rbind].
  destruct (hs_read_ty (b2z ty) body) as [[h [|b r]]|k'| |]; reflexivity.
Qed.
Lemma type_byte h : b2z (z2b (hs_type h)) = hs_type h.
Proof. rewrite b2z_z2b. apply Z.mod_small, hs_type_range. Qed.
Lemma cut_message h p q rest : wf_handshake h -> e_hs_body h = p ++ q -> q <> [] -> ~ opaque_body h ->
  get_message (frame (z2b (hs_type h)) p ++ rest) = (Err IoFailure, rest) \/
  get_message (frame (z2b (hs_type h)) p ++ rest) = (Ok (Some (without_extensions h)), rest) /\ without_extensions h <> h.
Proof.
  intros [W L] E Q O. rewrite framed_message by (rewrite E, zlen_app in L; pose proof (zlen_nonneg q); lia). rewrite type_byte.
  destruct (cut_body h p q W E Q O) as [->|[-> N]]; auto.
Qed.
(** bytes after the last field; the hellos end with the extension block, which takes (and loses) them *)
Lemma long_message h b extra rest : wf_handshake h -> ~ opaque_body h -> (forall x, h <> client_hello_msg x) -> (forall x, h <> server_hello_msg x) ->
  zlen (e_hs_body h ++ b :: extra) < 2 ^ 24 ->
  get_message (frame (z2b (hs_type h)) (e_hs_body h ++ b :: extra) ++ rest) = (Err InternalError, rest).
Proof.
  intros [W _] O NC NS L. rewrite framed_message by exact L. rewrite type_byte.
  assert (X : hs_read_ty (hs_type h) (e_hs_body h ++ b :: extra) = Ok (h, b :: extra)); [|rewrite X; reflexivity].
  destruct h; cbn [hs_type e_hs_body wf_hs_body opaque_body] in *; try (exfalso; apply O; exact I); try (exfalso; eapply NC; reflexivity); try (exfalso; eapply NS; reflexivity);
    unfold hs_read_ty; cbn [Z.eqb Pos.eqb]; unfold hs_read_body.
  - reflexivity.
  - rewrite (co_read _ _ _ codec_cert_list) by exact W. reflexivity.
  - rewrite (co_read _ _ _ codec_cert_request) by exact W. reflexivity.
  - reflexivity.
  - change i_verify_data with (i_array 12). rewrite (co_read _ _ _ (codec_array 12)) by exact W. reflexivity.
Qed.
