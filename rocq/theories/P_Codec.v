(** Proofs about the codecs: generic lemmas for the macros, then every wire type. *)
From Verif Require Import Spec_Wire.
From Coq Require Import ZifyBool ZifyNat.
Ltac Zify.zify_post_hook ::= Z.div_mod_to_equations.

(** ** Generic notions *)

(** [enc] is what is written for well-formed values and can be read back in any context *)
Record codec {A} (I : item A) (wf : A -> Prop) (enc : A -> bytes) : Prop := {
  co_write : forall a, wf a -> tls_write I a = Ok (enc a);
  co_size : forall a, wf a -> tls_size I a = zlen (enc a);
  co_read : forall a rest, wf a -> tls_read I (enc a ++ rest) = Ok (a, rest) }.

(** same for items that extend to the end of the input *)
Record codec_last {A} (I : item A) (wf : A -> Prop) (enc : A -> bytes) : Prop := {
  cl_write : forall a, wf a -> tls_write I a = Ok (enc a);
  cl_size : forall a, wf a -> tls_size I a = zlen (enc a);
  cl_read : forall a, wf a -> tls_read I (enc a) = Ok (a, []) }.

Definition is_value {A} (r : res A) : Prop :=
  match r with Ok _ | Err _ => True | Panic | Diverge => False end.

(** reading is total and canonical: what was accepted is consumed from the front, has size [tls_size] and
    is what writing the value again produces; the value satisfies [pwf] *)
Record parser {A} (I : item A) (pwf : A -> Prop) : Prop := {
  pa_total : forall bs, is_value (tls_read I bs);
  pa_canon : forall bs a rest, tls_read I bs = Ok (a, rest) ->
    exists w, bs = w ++ rest /\ zlen w = tls_size I a /\ (forall w', tls_write I a = Ok w' -> w' = w);
  pa_wf : forall bs a rest, tls_read I bs = Ok (a, rest) -> pwf a;
  pa_wr : forall a, is_value (tls_write I a) }.

Lemma codec_to_last {A} (I : item A) wf enc : codec I wf enc -> codec_last I wf enc.
Proof.
  intros [W S R]. split; auto. intros a Ha. rewrite <- (app_nil_r (enc a)). auto.
Qed.

Lemma rbind_ok {A B} (r : res A) (f : A -> res B) b :
  rbind r f = Ok b <-> exists a, r = Ok a /\ f a = Ok b.
Proof.
  destruct r; cbn [rbind]; split; try (intros (x & H & _); discriminate); try discriminate; eauto.
  intros (x & H & E). injection H as <-. exact E.
Qed.

Lemma rbind_value {A B} (r : res A) (f : A -> res B) :
  is_value r -> (forall a, r = Ok a -> is_value (f a)) -> is_value (rbind r f).
Proof. destruct r; cbn [rbind is_value]; auto. Qed.

(** ** Numbers *)

Lemma read_n_app n w rest : length w = n -> read_n n (w ++ rest) = Ok (w, rest).
Proof.
  intros <-. unfold read_n. rewrite app_length.
  destruct (Nat.leb_spec (length w) (length w + length rest)); [|lia].
  rewrite firstn_app, skipn_app, Nat.sub_diag, firstn_all, skipn_all. cbn [firstn skipn].
  rewrite app_nil_r. reflexivity.
Qed.

Lemma read_n_inv n bs w rest : read_n n bs = Ok (w, rest) -> bs = w ++ rest /\ length w = n.
Proof.
  unfold read_n. destruct (Nat.leb_spec n (length bs)) as [H|H]; [|discriminate].
  intros E; injection E as <- <-. rewrite firstn_skipn, firstn_length. split; [reflexivity|lia].
Qed.

Lemma read_n_value n bs : is_value (read_n n bs).
Proof. unfold read_n. destruct (_ <=? _)%nat; exact I. Qed.

Lemma rd_num_app w z rest : 0 <= z < 256 ^ Z.of_nat w -> rd_num w (be w z ++ rest) = Ok (z, rest).
Proof.
  intros H. unfold rd_num. rewrite read_n_app by apply be_length. cbn [rbind].
  rewrite be_val_be, Z.mod_small by exact H. reflexivity.
Qed.

Lemma rd_num_inv w bs z rest :
  rd_num w bs = Ok (z, rest) -> bs = be w z ++ rest /\ 0 <= z < 256 ^ Z.of_nat w.
Proof.
  unfold rd_num. rewrite rbind_ok. intros ([x r] & H & E). injection E as <- <-.
  apply read_n_inv in H as [-> HL]. subst w. rewrite be_be_val. split; [reflexivity|].
  apply be_val_range.
Qed.

Lemma rd_num_value w bs : is_value (rd_num w bs).
Proof. apply rbind_value; [apply read_n_value|]. intros [x r] _. exact I. Qed.

Lemma rd_num_1_cons b rest : rd_num 1 (b :: rest) = Ok (b2z b, rest).
Proof.
  change (b :: rest) with ([b] ++ rest). unfold rd_num. rewrite read_n_app by reflexivity.
  cbn [rbind]. unfold be_val. cbn [be_val_acc]. f_equal.
Qed.

Lemma rd_num_1_nil : rd_num 1 [] = Err IoFailure.
Proof. reflexivity. Qed.

Lemma be1 z : be 1 z = [z2b z].
Proof. cbn [be]. rewrite Z.pow_0_r, Z.div_1_r. reflexivity. Qed.

Lemma codec_u8 : codec i_u8 (fun _ => True) (fun b => [b]).
Proof.
  split; cbn [tls_write tls_read tls_size i_u8]; intros; auto.
  cbn [app]. rewrite rd_num_1_cons. cbn [rbind]. rewrite z2b_b2z. reflexivity.
Qed.

Lemma parser_u8 : parser i_u8 (fun _ => True).
Proof.
  split; cbn [tls_write tls_read tls_size i_u8]; auto.
  - intros bs. apply rbind_value; [apply rd_num_value|]. intros [x r] _. exact I.
  - intros bs a rest H. apply rbind_ok in H as ([x r] & H & E). injection E as <- <-.
    apply rd_num_inv in H as [-> HR]. exists (be 1 x). rewrite be1. split; [reflexivity|].
    split; [reflexivity|]. intros w' E; injection E as <-. reflexivity.
  - intros; exact I.
Qed.

Lemma codec_num w : codec (i_num w) (fun z => 0 <= z < 256 ^ Z.of_nat w) (be w).
Proof.
  split; cbn [tls_write tls_read tls_size i_num]; intros; auto.
  - rewrite zlen_be. reflexivity.
  - apply rd_num_app. assumption.
Qed.

Lemma parser_num w : parser (i_num w) (fun z => 0 <= z < 256 ^ Z.of_nat w).
Proof.
  split; cbn [tls_write tls_read tls_size i_num].
  - apply rd_num_value.
  - intros bs a rest H. apply rd_num_inv in H as [-> HR]. exists (be w a).
    split; [reflexivity|]. split; [apply zlen_be|]. intros w' E; injection E as <-. reflexivity.
  - intros bs a rest H. apply rd_num_inv in H as [_ HR]. exact HR.
  - intros; exact I.
Qed.

(** ** Structs *)

Lemma codec_pair {A B} (IA : item A) (IB : item B) wa wb ea eb :
  codec IA wa ea -> codec IB wb eb ->
  codec (i_pair IA IB) (fun p => wa (fst p) /\ wb (snd p)) (fun p => ea (fst p) ++ eb (snd p)).
Proof.
  intros [WA SA RA] [WB SB RB].
  split; cbn [tls_write tls_read tls_size i_pair]; intros [a b]; cbn [fst snd].
  - intros [Ha Hb]. rewrite WA, WB by assumption. reflexivity.
  - intros [Ha Hb]. rewrite SA, SB, zlen_app by assumption. reflexivity.
  - intros rest [Ha Hb]. rewrite <- app_assoc, RA by assumption. cbn [rbind].
    rewrite RB by assumption. reflexivity.
Qed.

Lemma codec_pair_last {A B} (IA : item A) (IB : item B) wa wb ea eb :
  codec IA wa ea -> codec_last IB wb eb ->
  codec_last (i_pair IA IB) (fun p => wa (fst p) /\ wb (snd p)) (fun p => ea (fst p) ++ eb (snd p)).
Proof.
  intros [WA SA RA] [WB SB RB].
  split; cbn [tls_write tls_read tls_size i_pair]; intros [a b]; cbn [fst snd].
  - intros [Ha Hb]. rewrite WA, WB by assumption. reflexivity.
  - intros [Ha Hb]. rewrite SA, SB, zlen_app by assumption. reflexivity.
  - intros [Ha Hb]. rewrite RA by assumption. cbn [rbind].
    rewrite RB by assumption. reflexivity.
Qed.

Lemma parser_pair {A B} (IA : item A) (IB : item B) wa wb :
  parser IA wa -> parser IB wb ->
  parser (i_pair IA IB) (fun p => wa (fst p) /\ wb (snd p)).
Proof.
  intros PA PB. split; cbn [tls_write tls_read tls_size i_pair].
  - intros bs. apply rbind_value; [apply PA|]. intros [a r] _.
    apply rbind_value; [apply PB|]. intros [b r'] _. exact I.
  - intros bs [a b] rest H. apply rbind_ok in H as ([a' r] & HA & H).
    apply rbind_ok in H as ([b' r'] & HB & E). injection E as <- <- <-.
    apply (pa_canon _ _ PA) in HA as (wA & -> & LA & CA).
    apply (pa_canon _ _ PB) in HB as (wB & -> & LB & CB).
    exists (wA ++ wB). rewrite app_assoc, zlen_app. cbn [fst snd].
    split; [reflexivity|]. split; [lia|].
    intros w' H. apply rbind_ok in H as (x & HX & H). apply rbind_ok in H as (y & HY & E).
    injection E as <-. rewrite (CA _ HX), (CB _ HY). reflexivity.
  - intros bs [a b] rest H. apply rbind_ok in H as ([a' r] & HA & H).
    apply rbind_ok in H as ([b' r'] & HB & E). injection E as <- <- <-.
    split; [eapply PA; exact HA | eapply PB; exact HB].
  - intros [a b]. apply rbind_value; [apply PA|]. intros x _.
    apply rbind_value; [apply PB|]. intros y _. exact I.
Qed.

Lemma codec_map {A B} (f : A -> B) (g : B -> A) (IA : item A) wa ea :
  codec IA wa ea -> (forall b, f (g b) = b) ->
  codec (i_map f g IA) (fun b => wa (g b)) (fun b => ea (g b)).
Proof.
  intros [W S R] fg. split; cbn [tls_write tls_read tls_size i_map]; intros; auto.
  rewrite R by assumption. cbn [rbind]. rewrite fg. reflexivity.
Qed.

Lemma codec_last_map {A B} (f : A -> B) (g : B -> A) (IA : item A) wa ea :
  codec_last IA wa ea -> (forall b, f (g b) = b) ->
  codec_last (i_map f g IA) (fun b => wa (g b)) (fun b => ea (g b)).
Proof.
  intros [W S R] fg. split; cbn [tls_write tls_read tls_size i_map]; intros; auto.
  rewrite R by assumption. cbn [rbind]. rewrite fg. reflexivity.
Qed.

Lemma parser_map {A B} (f : A -> B) (g : B -> A) (IA : item A) wa :
  parser IA wa -> (forall a, g (f a) = a) -> parser (i_map f g IA) (fun b => wa (g b)).
Proof.
  intros P gf. split; cbn [tls_write tls_read tls_size i_map].
  - intros bs. apply rbind_value; [apply P|]. intros [a r] _. exact I.
  - intros bs b rest H. apply rbind_ok in H as ([a r] & HA & E). injection E as <- <-.
    rewrite gf. apply (pa_canon _ _ P) in HA. exact HA.
  - intros bs b rest H. apply rbind_ok in H as ([a r] & HA & E). injection E as <- <-.
    rewrite gf. eapply P; exact HA.
  - intros b. apply P.
Qed.

Lemma codec_weaken {A} (I : item A) (wf wf' : A -> Prop) (enc enc' : A -> bytes) :
  codec I wf enc -> (forall a, wf' a -> wf a) -> (forall a, wf' a -> enc a = enc' a) -> codec I wf' enc'.
Proof.
  intros [W S R] H E. split; intros; rewrite <- E by assumption; auto.
Qed.

Lemma codec_last_weaken {A} (I : item A) (wf wf' : A -> Prop) (enc enc' : A -> bytes) :
  codec_last I wf enc -> (forall a, wf' a -> wf a) -> (forall a, wf' a -> enc a = enc' a) ->
  codec_last I wf' enc'.
Proof.
  intros [W S R] H E. split; intros; rewrite <- E by assumption; auto.
Qed.

Lemma parser_weaken {A} (I : item A) (wf wf' : A -> Prop) :
  parser I wf -> (forall a, wf a -> wf' a) -> parser I wf'.
Proof. intros [T C W V] H. split; eauto. Qed.

(** ** Enumerations *)

Definition enum_ok {A} (w : nat) (code : A -> Z) (all : list A) : Prop :=
  forall a, from_code code all (code a) = Some a /\ 0 <= code a < 256 ^ Z.of_nat w.

Lemma codec_enum {A} w (code : A -> Z) all :
  enum_ok w code all -> codec (i_enum w code all) (fun _ => True) (fun a => be w (code a)).
Proof.
  intros H. split; cbn [tls_write tls_read tls_size i_enum]; intros; auto.
  - rewrite zlen_be. reflexivity.
  - destruct (H a) as [E R]. rewrite rd_num_app by exact R. cbn [rbind]. rewrite E. reflexivity.
Qed.

Lemma parser_enum {A} w (code : A -> Z) all : parser (i_enum w code all) (fun _ => True).
Proof.
  split; cbn [tls_write tls_read tls_size i_enum].
  - intros bs. apply rbind_value; [apply rd_num_value|]. intros [n r] _.
    destruct (from_code code all n); exact I.
  - intros bs a rest H. apply rbind_ok in H as ([n r] & HN & H).
    destruct (from_code code all n) as [a'|] eqn:E; [|discriminate]. injection H as <- <-.
    apply find_some in E as [_ E]. apply rd_num_inv in HN as [-> HR].
    exists (be w n). split; [reflexivity|]. split; [apply zlen_be|].
    intros w' H; injection H as <-. unfold wr_num. f_equal. lia.
  - auto.
  - intros; exact I.
Qed.

Ltac solve_enum := intros []; (split; [reflexivity | cbn; lia]).
Lemma ok_alert_level : enum_ok 1 alert_level_code alert_level_all. Proof. solve_enum. Qed.
Lemma ok_alert_desc : enum_ok 1 alert_desc_code alert_desc_all. Proof. solve_enum. Qed.
Lemma ok_hash_alg : enum_ok 1 hash_alg_code hash_alg_all. Proof. solve_enum. Qed.
Lemma ok_sig_alg : enum_ok 1 sig_alg_code sig_alg_all. Proof. solve_enum. Qed.
Lemma ok_compression : enum_ok 1 compression_code compression_all. Proof. solve_enum. Qed.
Lemma ok_named_curve : enum_ok 2 named_curve_code named_curve_all. Proof. solve_enum. Qed.
Lemma ok_point_format : enum_ok 1 point_format_code point_format_all. Proof. solve_enum. Qed.
Lemma ok_cert_type : enum_ok 1 cert_type_code cert_type_all. Proof. solve_enum. Qed.

(** ** Arrays *)

Lemma codec_array n : codec (i_array n) (fun v => length v = n) (fun v => v).
Proof.
  split; cbn [tls_write tls_read tls_size i_array]; intros; auto.
  - unfold zlen. lia.
  - apply read_n_app. assumption.
Qed.

Lemma parser_array n : parser (i_array n) (fun v => length v = n).
Proof.
  split; cbn [tls_write tls_read tls_size i_array].
  - apply read_n_value.
  - intros bs a rest H. apply read_n_inv in H as [-> HL]. exists a.
    split; [reflexivity|]. split; [unfold zlen; lia|]. intros w' E; injection E as <-. reflexivity.
  - intros bs a rest H. apply read_n_inv in H as [_ HL]. exact HL.
  - intros; exact I.
Qed.

(** ** Vectors *)

Lemma zlen_concat_map {A} (enc : A -> bytes) a l :
  zlen (concat (map enc (a :: l))) = zlen (enc a) + zlen (concat (map enc l)).
Proof. cbn [map concat]. apply zlen_app. Qed.

Lemma data_size_enc {A} (I : item A) wf enc l :
  codec I wf enc -> Forall wf l -> data_size I l = zlen (concat (map enc l)).
Proof.
  intros C. induction 1 as [|a l Ha Hl IH]; [reflexivity|].
  rewrite zlen_concat_map, <- IH, <- (co_size _ _ _ C) by assumption. reflexivity.
Qed.

Lemma write_items_enc {A} (I : item A) wf enc l :
  codec I wf enc -> Forall wf l -> write_items I l = Ok (concat (map enc l)).
Proof.
  intros C. induction 1 as [|a l Ha Hl IH]; [reflexivity|]. cbn [write_items].
  rewrite (co_write _ _ _ C), IH by assumption. reflexivity.
Qed.

Lemma read_items_enc {A} (I : item A) wf enc l :
  codec I wf enc -> (forall a, wf a -> 1 <= tls_size I a) -> Forall wf l ->
  forall fuel s rest, (length (concat (map enc l) ++ rest) < fuel)%nat ->
    read_items I fuel s (s + zlen (concat (map enc l))) (concat (map enc l) ++ rest)
    = Ok ((l, s + zlen (concat (map enc l))), rest).
Proof.
  intros C P. induction 1 as [|a l Ha Hl IH]; intros fuel s rest HF.
  - cbn [map concat app] in *. rewrite zlen_nil, Z.add_0_r.
    destruct fuel; cbn [read_items]; rewrite Z.ltb_irrefl; reflexivity.
  - pose proof (P a Ha) as Pa. pose proof (co_size _ _ _ C a Ha) as Sa.
    rewrite zlen_concat_map in *. pose proof (zlen_nonneg (concat (map enc l))) as NN.
    destruct fuel as [|fuel]; [lia|]. cbn [read_items].
    destruct (Z.ltb_spec s (s + (zlen (enc a) + zlen (concat (map enc l))))); [|lia].
    cbn [map concat] in *. rewrite <- app_assoc in *. rewrite (co_read _ _ _ C) by assumption. cbn [rbind].
    replace (s + (zlen (enc a) + zlen (concat (map enc l))))
      with (s + tls_size I a + zlen (concat (map enc l))) by lia.
    rewrite IH; [cbn [rbind fst snd]; reflexivity|].
    rewrite app_length in HF. unfold zlen in *. lia.
Qed.

Lemma vec_width_ok mx : 0 <= mx < 2 ^ 64 -> mx < 256 ^ Z.of_nat (vec_width mx).
Proof.
  intros H. unfold vec_width.
  destruct (Z.ltb_spec mx (2 ^ 8)); [cbn; lia|].
  destruct (Z.ltb_spec mx (2 ^ 16)); [cbn; lia|].
  destruct (Z.ltb_spec mx (2 ^ 24)); [cbn; lia|].
  destruct (Z.ltb_spec mx (2 ^ 32)); cbn; lia.
Qed.

Lemma codec_vec {A} (I : item A) wf enc mn mx :
  codec I wf enc -> (forall a, wf a -> 1 <= tls_size I a) -> 0 <= mx < 2 ^ 64 ->
  codec (i_vec I mn mx)
    (fun l => Forall wf l /\ in_range mn (zlen (concat (map enc l))) mx)
    (fun l => sp_vec (vec_width mx) (concat (map enc l))).
Proof.
  intros C P M. pose proof (vec_width_ok mx M) as W. unfold in_range.
  split; cbn [tls_write tls_read tls_size i_vec].
  - intros l [Hl R]. rewrite (write_items_enc _ _ _ _ C Hl). cbn [rbind].
    rewrite (data_size_enc _ _ _ _ C Hl). reflexivity.
  - intros l [Hl R]. rewrite (data_size_enc _ _ _ _ C Hl). unfold sp_vec.
    rewrite zlen_app, zlen_be. reflexivity.
  - intros l rest [Hl R]. pose proof (zlen_nonneg (concat (map enc l))) as NN.
    unfold sp_vec. rewrite <- app_assoc. rewrite rd_num_app by lia.
    cbn [rbind]. rewrite (read_items_enc I wf enc l C P Hl _ 0); [|lia]. cbn [rbind fst snd].
    rewrite Z.eqb_refl. cbn [negb]. unfold vec_new. rewrite (data_size_enc _ _ _ _ C Hl).
    destruct (Z.ltb_spec (zlen (concat (map enc l))) mn); [lia|].
    destruct (Z.ltb_spec mx (zlen (concat (map enc l)))); [lia|]. reflexivity.
Qed.

Lemma read_items_value {A} (I : item A) pwf :
  parser I pwf -> (forall a, 1 <= tls_size I a) ->
  forall fuel s t bs, (length bs < fuel)%nat -> is_value (read_items I fuel s t bs).
Proof.
  intros P S1. induction fuel as [|fuel IH]; intros s t bs HF; [lia|]. cbn [read_items].
  destruct (s <? t); [|exact Logic.I].
  apply rbind_value; [apply P|]. intros [a r] HA.
  apply rbind_value; [|intros [ls r'] _; exact Logic.I].
  apply IH. apply (pa_canon _ _ P) in HA as (w & -> & LW & _).
  pose proof (S1 a). rewrite app_length in HF. unfold zlen in LW. lia.
Qed.

Lemma read_items_canon {A} (I : item A) pwf :
  parser I pwf ->
  forall fuel s t bs l sz rest, read_items I fuel s t bs = Ok ((l, sz), rest) ->
    Forall pwf l /\ sz = s + data_size I l /\
    exists w, bs = w ++ rest /\ zlen w = data_size I l /\
              (forall w', write_items I l = Ok w' -> w' = w).
Proof.
  intros P. induction fuel as [|fuel IH]; intros s t bs l sz rest; cbn [read_items].
  - destruct (s <? t); [discriminate|]. intros E; injection E as <- <- <-.
    split; [constructor|]. split; [cbn; lia|]. exists []. split; [reflexivity|].
    split; [reflexivity|]. intros w' E; injection E as <-. reflexivity.
  - destruct (s <? t).
    + intros H. apply rbind_ok in H as ([a r] & HA & H). apply rbind_ok in H as ([ls r'] & HL & E).
      injection E as <- <- <-. destruct ls as [l' sz']. cbn [fst snd].
      pose proof (pa_wf _ _ P _ _ _ HA) as Wa.
      apply (pa_canon _ _ P) in HA as (w & -> & LW & CW).
      apply IH in HL as (F & -> & w2 & -> & L2 & C2).
      split; [constructor; assumption|].
      change (data_size I (a :: l')) with (tls_size I a + data_size I l').
      split; [lia|].
      exists (w ++ w2). rewrite app_assoc, zlen_app. split; [reflexivity|]. split; [lia|].
      cbn [write_items]. intros w' H. apply rbind_ok in H as (x & HX & H).
      apply rbind_ok in H as (y & HY & E). injection E as <-. rewrite (CW _ HX), (C2 _ HY). reflexivity.
    + intros E; injection E as <- <- <-.
      split; [constructor|]. split; [cbn; lia|]. exists []. split; [reflexivity|].
      split; [reflexivity|]. intros w' E; injection E as <-. reflexivity.
Qed.

Lemma write_items_value {A} (I : item A) pwf l : parser I pwf -> is_value (write_items I l).
Proof.
  intros P. induction l as [|a l IH]; [exact Logic.I|]. cbn [write_items].
  apply rbind_value; [apply P|]. intros x _. apply rbind_value; [exact IH|]. intros y _. exact Logic.I.
Qed.

Lemma vec_new_value {A} (I : item A) mn mx l : is_value (vec_new I mn mx l).
Proof. unfold vec_new. destruct (_ <? _); [exact Logic.I|]. destruct (_ <? _); exact Logic.I. Qed.

Lemma vec_new_ok {A} (I : item A) mn mx l v :
  vec_new I mn mx l = Ok v <-> v = l /\ in_range mn (data_size I l) mx.
Proof.
  unfold vec_new, in_range.
  destruct (Z.ltb_spec (data_size I l) mn); [split; [discriminate|lia]|].
  destruct (Z.ltb_spec mx (data_size I l)); [split; [discriminate|lia]|].
  split; [intros E; injection E as <-; auto with zarith | intros [-> _]; reflexivity].
Qed.

Lemma parser_vec {A} (I : item A) pwf mn mx :
  parser I pwf -> (forall a, 1 <= tls_size I a) ->
  parser (i_vec I mn mx) (fun l => Forall pwf l /\ in_range mn (data_size I l) mx).
Proof.
  intros P S1.
  assert (INV : forall bs l rest, tls_read (i_vec I mn mx) bs = Ok (l, rest) ->
    exists r, rd_num (vec_width mx) bs = Ok (data_size I l, r) /\
              read_items I (S (length r)) 0 (data_size I l) r = Ok ((l, data_size I l), rest) /\
              in_range mn (data_size I l) mx).
  { intros bs l rest H. cbn [tls_read i_vec] in H. apply rbind_ok in H as ([n r] & HN & H).
    apply rbind_ok in H as ([[l' sz] r'] & HL & H). cbn [fst snd] in H.
    destruct (Z.eqb_spec sz n) as [->|]; [|discriminate]. cbn [negb] in H.
    apply rbind_ok in H as (v & HV & E). injection E as <- <-.
    apply vec_new_ok in HV as [-> HR]. exists r.
    destruct (read_items_canon I pwf P _ _ _ _ _ _ _ HL) as (_ & HS & _).
    replace (data_size I l') with n by lia. replace (data_size I l') with n in HR by lia. auto. }
  split.
  - cbn [tls_read i_vec]. intros bs. apply rbind_value; [apply rd_num_value|]. intros [n r] _.
    apply rbind_value; [apply (read_items_value I pwf P S1); lia|].
    intros [ls r'] _. destruct (negb _); [exact Logic.I|].
    apply rbind_value; [apply vec_new_value|]. intros v _. exact Logic.I.
  - intros bs l rest H. apply INV in H as (r & HN & HL & HR).
    apply rd_num_inv in HN as [-> RN].
    destruct (read_items_canon I pwf P _ _ _ _ _ _ _ HL) as (F & _ & w & -> & LW & CW).
    cbn [tls_size tls_write i_vec].
    exists (be (vec_width mx) (data_size I l) ++ w). rewrite <- app_assoc, zlen_app, zlen_be.
    split; [reflexivity|]. split; [lia|].
    intros w' H. apply rbind_ok in H as (x & HX & E). injection E as <-. rewrite (CW _ HX). reflexivity.
  - intros bs l rest H. apply INV in H as (r & HN & HL & HR).
    destruct (read_items_canon I pwf P _ _ _ _ _ _ _ HL) as (F & _). auto.
  - intros l. cbn [tls_write i_vec]. apply rbind_value; [apply (write_items_value I pwf); exact P|].
    intros x _. exact Logic.I.
Qed.

(** vectors of bytes *)
Lemma concat_singletons (l : bytes) : concat (map (fun b => [b]) l) = l.
Proof. induction l as [|b l IH]; cbn [map concat app]; [reflexivity|]. rewrite IH. reflexivity. Qed.

Lemma data_size_u8 l : data_size i_u8 l = zlen l.
Proof.
  induction l as [|b l IH]; [reflexivity|]. rewrite zlen_cons, <- IH. reflexivity.
Qed.

Lemma codec_opaque mn mx :
  0 <= mx < 2 ^ 64 ->
  codec (i_vec i_u8 mn mx) (fun l => in_range mn (zlen l) mx) (sp_vec (vec_width mx)).
Proof.
  intros M. eapply codec_weaken.
  - apply (codec_vec i_u8 (fun _ => True) (fun b => [b]) mn mx codec_u8); [|exact M]. cbn; lia.
  - cbv beta. intros a Ha. rewrite concat_singletons. split; [|exact Ha].
    apply Forall_forall; auto.
  - cbv beta. intros a _. rewrite concat_singletons. reflexivity.
Qed.

Lemma parser_opaque mn mx : parser (i_vec i_u8 mn mx) (fun l => in_range mn (zlen l) mx).
Proof.
  eapply parser_weaken.
  - apply (parser_vec i_u8 (fun _ => True) mn mx parser_u8). cbn; lia.
  - cbv beta. intros a [_ H]. rewrite data_size_u8 in H. exact H.
Qed.

(** vectors of fixed-size items *)
Lemma zlen_concat_fixed {A} (enc : A -> bytes) k l :
  (forall a, zlen (enc a) = k) -> zlen (concat (map enc l)) = k * zlen l.
Proof.
  intros H. induction l as [|a l IH]; [unfold zlen; cbn; lia|].
  rewrite zlen_concat_map, zlen_cons, IH, H. lia.
Qed.

Lemma data_size_fixed {A} (I : item A) k l :
  (forall a, tls_size I a = k) -> data_size I l = k * zlen l.
Proof.
  intros H. induction l as [|a l IH]; [unfold zlen; cbn; lia|].
  change (data_size I (a :: l)) with (tls_size I a + data_size I l).
  rewrite zlen_cons, IH, H. lia.
Qed.

(** ** Option, dummy, obscure *)

Lemma codec_option {A} (I : item A) wf enc :
  codec I wf enc -> (forall a, wf a -> enc a <> []) ->
  codec_last (i_option I) (fun o => match o with None => True | Some a => wf a end)
             (fun o => match o with None => [] | Some a => enc a end).
Proof.
  intros [W S R] NE. split; cbn [tls_write tls_read tls_size i_option].
  - intros [a|] H; auto.
  - intros [a|] H; auto.
  - intros [a|] H; auto. specialize (R a [] H). rewrite app_nil_r in R.
    destruct (enc a) as [|b bs] eqn:E; [exfalso; exact (NE a H E)|]. rewrite R. reflexivity.
Qed.

Lemma codec_dummy : codec i_dummy (fun _ => True) (fun _ => []).
Proof. split; cbn; intros; auto. destruct a; reflexivity. Qed.

Lemma parser_dummy : parser i_dummy (fun _ => True).
Proof.
  split; cbn; auto. intros bs a rest E; injection E as <- <-. exists [].
  split; [reflexivity|]. split; [reflexivity|]. intros w' E; injection E as <-; reflexivity.
Qed.

Lemma codec_obscure : codec_last i_obscure (fun _ => True) (fun v => v).
Proof. split; cbn; intros; auto. Qed.

Lemma parser_obscure : parser i_obscure (fun _ => True).
Proof.
  split; cbn; auto. intros bs a rest E; injection E as <- <-. exists bs.
  split; [rewrite app_nil_r; reflexivity|]. split; [reflexivity|].
  intros w' E; injection E as <-; reflexivity.
Qed.

(** ** Every wire type *)

Lemma enum1 {A} (code : A -> Z) a : be 1 (code a) = [z2b (code a)].
Proof. apply be1. Qed.

Lemma codec_alert : codec i_alert (fun _ => True) e_alert.
Proof.
  eapply codec_weaken.
  - eapply codec_map; [eapply codec_pair; eapply codec_enum; [exact ok_alert_level | exact ok_alert_desc]|].
    intros []; reflexivity.
  - cbv beta; auto.
  - cbv beta. cbn [fst snd]. intros [x y] _. rewrite !enum1. destruct x, y; reflexivity.
Qed.
Lemma parser_alert : parser i_alert (fun _ => True).
Proof.
  eapply parser_weaken; [|auto].
  eapply parser_map; [eapply parser_pair; eapply parser_enum|]. intros []; reflexivity.
Qed.

Lemma codec_sig_hash : codec i_sig_hash (fun _ => True) e_sig_hash.
Proof.
  eapply codec_weaken.
  - eapply codec_map; [eapply codec_pair; eapply codec_enum; [exact ok_hash_alg | exact ok_sig_alg]|].
    intros []; reflexivity.
  - cbv beta; auto.
  - cbv beta. cbn [fst snd]. intros [x y] _. rewrite !enum1. destruct x, y; reflexivity.
Qed.
Lemma parser_sig_hash : parser i_sig_hash (fun _ => True).
Proof.
  eapply parser_weaken; [|auto].
  eapply parser_map; [eapply parser_pair; eapply parser_enum|]. intros []; reflexivity.
Qed.
Lemma size_sig_hash a : tls_size i_sig_hash a = 2. Proof. reflexivity. Qed.
Lemma zlen_sig_hash a : zlen (e_sig_hash a) = 2. Proof. reflexivity. Qed.

Ltac fixed_codec C P H1 :=
  eapply codec_weaken;
  [ eapply codec_vec; [exact C | intros; cbn; lia | lia]
  | cbv beta; intros l Hl; rewrite H1; split; [apply Forall_forall; auto | exact Hl]
  | intros; reflexivity ].
Ltac fixed_parser P H1 :=
  eapply parser_weaken;
  [ eapply parser_vec; [exact P | intros; cbn; lia]
  | cbv beta; intros l [_ Hl]; rewrite H1 in Hl; exact Hl ].

Lemma codec_sig_hash_vec : codec i_sig_hash_vec (fun l => in_range 2 (2 * zlen l) 65534) e_sig_hashes.
Proof. fixed_codec codec_sig_hash parser_sig_hash (fun l => zlen_concat_fixed e_sig_hash 2 l zlen_sig_hash). Qed.
Lemma parser_sig_hash_vec : parser i_sig_hash_vec (fun l => in_range 2 (2 * zlen l) 65534).
Proof. fixed_parser parser_sig_hash (fun l => data_size_fixed i_sig_hash 2 l size_sig_hash). Qed.

Lemma codec_digitally_signed : codec i_digitally_signed wf_digitally_signed e_digitally_signed.
Proof.
  eapply codec_weaken.
  - eapply codec_map; [eapply codec_pair; [exact codec_sig_hash | apply codec_opaque; lia]|].
    intros []; reflexivity.
  - cbv beta. cbn [fst snd]. intros a Ha. split; [exact I | exact Ha].
  - intros; reflexivity.
Qed.
Lemma parser_digitally_signed : parser i_digitally_signed wf_digitally_signed.
Proof.
  eapply parser_weaken.
  - eapply parser_map; [eapply parser_pair; [exact parser_sig_hash | apply parser_opaque]|].
    intros []; reflexivity.
  - cbv beta. cbn [fst snd]. intros a [_ Ha]. exact Ha.
Qed.

Lemma codec_suite : codec i_cipher_suite wf_suite e_suite.
Proof.
  unfold wf_suite. split; cbn [tls_write tls_read tls_size i_cipher_suite].
  - intros []; [reflexivity | contradiction].
  - intros []; [reflexivity | contradiction].
  - intros [] rest H; [|contradiction]. cbn [e_suite app]. rewrite rd_num_1_cons. cbn [rbind].
    rewrite rd_num_1_cons. reflexivity.
Qed.
Lemma parser_suite : parser i_cipher_suite (fun _ => True).
Proof.
  split; cbn [tls_write tls_read tls_size i_cipher_suite]; auto.
  - intros bs. apply rbind_value; [apply rd_num_value|]. intros [x r] _.
    apply rbind_value; [apply rd_num_value|]. intros [y r'] _.
    destruct ((x =? 204) && (y =? 168)); exact I.
  - intros bs a rest H. apply rbind_ok in H as ([x r] & HX & H). apply rbind_ok in H as ([y r'] & HY & H).
    apply rd_num_inv in HX as [-> RX]. apply rd_num_inv in HY as [-> RY].
    exists (be 1 x ++ be 1 y). rewrite <- app_assoc, zlen_app, !zlen_be.
    destruct ((x =? 204) && (y =? 168)) eqn:E; injection H as <- <-;
      (split; [reflexivity|]; split; [reflexivity|]); [|discriminate].
    intros w' H; injection H as <-. apply andb_true_iff in E as [E1 E2].
    apply Z.eqb_eq in E1, E2. subst. reflexivity.
  - intros []; exact I.
Qed.

Lemma codec_version : codec i_version (fun _ => True) e_version.
Proof.
  eapply codec_weaken.
  - eapply codec_map; [eapply codec_pair; exact codec_u8|]. intros []; reflexivity.
  - cbv beta; auto.
  - intros; reflexivity.
Qed.
Lemma parser_version : parser i_version (fun _ => True).
Proof.
  eapply parser_weaken; [|auto].
  eapply parser_map; [eapply parser_pair; exact parser_u8|]. intros []; reflexivity.
Qed.

Lemma zlen_curve a : zlen (e_curve a) = 2. Proof. reflexivity. Qed.
Lemma zlen_format a : zlen (e_format a) = 1. Proof. reflexivity. Qed.
Lemma codec_curve : codec i_named_curve (fun _ => True) e_curve.
Proof.
  eapply codec_weaken; [apply codec_enum; exact ok_named_curve | auto |].
  intros [] _; reflexivity.
Qed.
Lemma codec_format : codec i_point_format (fun _ => True) e_format.
Proof.
  eapply codec_weaken; [apply codec_enum; exact ok_point_format | auto | ].
  intros [] _; reflexivity.
Qed.
Lemma codec_curve_list : codec i_curve_list (fun l => in_range 1 (2 * zlen l) 65535)
  (fun l => sp_vec 2 (concat (map e_curve l))).
Proof. fixed_codec codec_curve I (fun l => zlen_concat_fixed e_curve 2 l zlen_curve). Qed.
Lemma parser_curve_list : parser i_curve_list (fun l => in_range 1 (2 * zlen l) 65535).
Proof. fixed_parser (parser_enum 2 named_curve_code named_curve_all) (fun l => data_size_fixed i_named_curve 2 l (fun _ => eq_refl)). Qed.
Lemma codec_format_list : codec i_point_format_list (fun l => in_range 1 (zlen l) 255)
  (fun l => sp_vec 1 (concat (map e_format l))).
Proof.
  eapply codec_weaken;
  [ eapply codec_vec; [exact codec_format | intros; cbn; lia | lia] | | reflexivity ].
  cbv beta. intros l Hl. rewrite (zlen_concat_fixed e_format 1 l zlen_format), Z.mul_1_l.
  split; [apply Forall_forall; auto | exact Hl].
Qed.
Lemma parser_format_list : parser i_point_format_list (fun l => in_range 1 (zlen l) 255).
Proof.
  eapply parser_weaken;
  [ eapply parser_vec; [exact (parser_enum 1 point_format_code point_format_all) | intros; cbn; lia] | ].
  cbv beta. intros l [_ Hl]. rewrite (data_size_fixed i_point_format 1 l (fun _ => eq_refl)), Z.mul_1_l in Hl.
  exact Hl.
Qed.

(** *** Extensions *)

Lemma vec_size_fixed {A} (I : item A) (enc : A -> bytes) k mn mx l :
  (forall a, tls_size I a = k) -> (forall a, zlen (enc a) = k) ->
  tls_size (i_vec I mn mx) l = zlen (sp_vec (vec_width mx) (concat (map enc l))).
Proof.
  intros H1 H2. cbn [tls_size i_vec]. unfold sp_vec. rewrite zlen_app, zlen_be.
  rewrite (data_size_fixed I k l H1), (zlen_concat_fixed enc k l H2). reflexivity.
Qed.

Lemma e_ext_data_size e : ext_size e = 4 + zlen (e_ext_data e).
Proof.
  unfold ext_size. apply (f_equal (Z.add 4)). destruct e as [l|l|l|ty d]; cbn [e_ext_data].
  - exact (vec_size_fixed i_named_curve e_curve 2 _ _ l (fun _ => eq_refl) zlen_curve).
  - exact (vec_size_fixed i_point_format e_format 1 _ _ l (fun _ => eq_refl) zlen_format).
  - exact (vec_size_fixed i_sig_hash e_sig_hash 2 _ _ l (fun _ => eq_refl) zlen_sig_hash).
  - reflexivity.
Qed.

Lemma ext_body_read {A} (I : item A) wf enc (mk : A -> extension) a rest :
  codec I wf enc -> wf a ->
  ext_read_body I mk (zlen (enc a)) (enc a ++ rest) = Ok (mk a, rest).
Proof.
  intros C Ha. unfold ext_read_body. rewrite (co_read _ _ _ C) by assumption. cbn [rbind].
  rewrite (co_size _ _ _ C) by assumption. rewrite Z.eqb_refl. reflexivity.
Qed.

Lemma codec_ext : codec i_extension wf_ext e_ext.
Proof.
  split; cbn [tls_write tls_read tls_size i_extension].
  - intros e [He HL]. unfold e_ext, sp_vec. destruct e as [l|l|l|ty d]; cbn [ext_write e_ext_type e_ext_data] in *;
      unfold ext_write_body.
    + rewrite (co_write _ _ _ codec_curve_list), (co_size _ _ _ codec_curve_list) by assumption. reflexivity.
    + rewrite (co_write _ _ _ codec_format_list), (co_size _ _ _ codec_format_list) by assumption. reflexivity.
    + rewrite (co_write _ _ _ codec_sig_hash_vec), (co_size _ _ _ codec_sig_hash_vec) by assumption. reflexivity.
    + reflexivity.
  - intros e _. rewrite e_ext_data_size. unfold e_ext, sp_vec. rewrite !zlen_app, !zlen_be. lia.
  - intros e rest [He HL]. unfold e_ext, sp_vec, ext_read.
    pose proof (zlen_nonneg (e_ext_data e)) as NN.
    rewrite <- !app_assoc.
    assert (RT : 0 <= e_ext_type e < 256 ^ Z.of_nat 2).
    { destruct e; cbn [e_ext_type]; try (cbn; lia). destruct He as [R _]. unfold in_range in R. cbn. lia. }
    rewrite rd_num_app by exact RT. cbn [rbind]. rewrite rd_num_app by (cbn; lia). cbn [rbind].
    destruct e as [l|l|l|ty d]; cbn [e_ext_type e_ext_data] in *.
    + cbn [Z.eqb Pos.eqb]. apply (ext_body_read _ _ _ elliptic_curves l rest codec_curve_list He).
    + cbn [Z.eqb Pos.eqb]. apply (ext_body_read _ _ _ ec_point_formats l rest codec_format_list He).
    + cbn [Z.eqb Pos.eqb]. apply (ext_body_read _ _ _ signature_algorithms l rest codec_sig_hash_vec He).
    + destruct He as (_ & N1 & N2 & N3).
      destruct (Z.eqb_spec ty 10); [contradiction|]. destruct (Z.eqb_spec ty 11); [contradiction|].
      destruct (Z.eqb_spec ty 13); [contradiction|].
      rewrite read_n_app by (unfold zlen; lia). reflexivity.
Qed.

Lemma ext_body_inv {A} (I : item A) pwf (mk : A -> extension) size bs e rest :
  parser I pwf -> ext_read_body I mk size bs = Ok (e, rest) ->
  exists a w, e = mk a /\ pwf a /\ size = tls_size I a /\ bs = w ++ rest /\ zlen w = tls_size I a /\ (forall w', tls_write I a = Ok w' -> w' = w).
Proof.
  intros P H. unfold ext_read_body in H. apply rbind_ok in H as ([a r] & HA & H).
  destruct (Z.eqb_spec size (tls_size I a)) as [E|E]; [|discriminate]. cbn [negb] in H. injection H as <- <-.
  pose proof (pa_wf _ _ P _ _ _ HA) as W. apply (pa_canon _ _ P) in HA as (w & -> & L & C).
  exists a, w. auto 10.
Qed.

Lemma parser_ext : parser i_extension wf_ext.
Proof.
  assert (INV : forall bs e rest, ext_read bs = Ok (e, rest) ->
    wf_ext e /\ bs = e_ext e ++ rest).
  { intros bs e rest H. unfold ext_read in H. apply rbind_ok in H as ([ty r] & HT & H).
    apply rbind_ok in H as ([size r'] & HS & H).
    apply rd_num_inv in HT as [-> RT]. apply rd_num_inv in HS as [-> RS].
    change (256 ^ Z.of_nat 2) with 65536 in *.
    unfold e_ext, wf_ext, sp_vec.
    destruct (Z.eqb_spec ty 10) as [->|N1].
    { apply (ext_body_inv _ _ _ _ _ _ _ parser_curve_list) in H as (a & w & -> & W & -> & -> & L & C).
      specialize (C _ (co_write _ _ _ codec_curve_list a W)). subst w.
      cbn [e_ext_type e_ext_data]. rewrite <- L, <- !app_assoc in *. split; [split; [exact W|lia]|reflexivity]. }
    destruct (Z.eqb_spec ty 11) as [->|N2].
    { apply (ext_body_inv _ _ _ _ _ _ _ parser_format_list) in H as (a & w & -> & W & -> & -> & L & C).
      specialize (C _ (co_write _ _ _ codec_format_list a W)). subst w.
      cbn [e_ext_type e_ext_data]. rewrite <- L, <- !app_assoc in *. split; [split; [exact W|lia]|reflexivity]. }
    destruct (Z.eqb_spec ty 13) as [->|N3].
    { apply (ext_body_inv _ _ _ _ _ _ _ parser_sig_hash_vec) in H as (a & w & -> & W & -> & -> & L & C).
      specialize (C _ (co_write _ _ _ codec_sig_hash_vec a W)). subst w.
      cbn [e_ext_type e_ext_data]. rewrite <- L, <- !app_assoc in *. split; [split; [exact W|lia]|reflexivity]. }
    apply rbind_ok in H as ([d r] & HD & E). injection E as <- <-.
    apply read_n_inv in HD as [-> LD]. cbn [e_ext_type e_ext_data].
    assert (EL : zlen d = size) by (unfold zlen; lia). rewrite EL.
    unfold in_range. split; [split; [split; [lia|auto]|lia]|]. rewrite <- !app_assoc. reflexivity. }
  split; cbn [tls_write tls_read tls_size i_extension].
  - intros bs. unfold ext_read, ext_read_body. apply rbind_value; [apply rd_num_value|]. intros [ty r] _.
    apply rbind_value; [apply rd_num_value|]. intros [size r'] _.
    destruct (ty =? 10).
    { apply rbind_value; [apply parser_curve_list|]. intros [b x] _. destruct (negb _); exact I. }
    destruct (ty =? 11).
    { apply rbind_value; [apply parser_format_list|]. intros [b x] _. destruct (negb _); exact I. }
    destruct (ty =? 13).
    { apply rbind_value; [apply parser_sig_hash_vec|]. intros [b x] _. destruct (negb _); exact I. }
    apply rbind_value; [apply read_n_value|]. intros [d x] _. exact I.
  - intros bs e rest H. apply INV in H as [W ->]. exists (e_ext e). split; [reflexivity|].
    split; [symmetry; apply (co_size _ _ _ codec_ext); exact W|].
    intros w' H. change (ext_write e) with (tls_write i_extension e) in H; rewrite (co_write _ _ _ codec_ext e W) in H. injection H as <-. reflexivity.
  - intros bs e rest H. apply INV in H as [W _]. exact W.
  - intros e. destruct e as [l|l|l|ty d]; cbn [ext_write]; unfold ext_write_body;
      [| | | exact I]; (apply rbind_value; [|intros x _; exact I]).
    + apply parser_curve_list. + apply parser_format_list. + apply parser_sig_hash_vec.
Qed.

Lemma ext_size_pos e : 1 <= tls_size i_extension e.
Proof. cbn [tls_size i_extension]. rewrite e_ext_data_size. pose proof (zlen_nonneg (e_ext_data e)). lia. Qed.

Definition wf_ext_vec (l : list extension) : Prop := Forall wf_ext l /\ zlen (concat (map e_ext l)) <= 65535.

Lemma codec_ext_vec : codec i_extension_vec wf_ext_vec e_ext_vec.
Proof.
  eapply codec_weaken.
  - eapply codec_vec; [exact codec_ext | intros a _; apply ext_size_pos | lia].
  - cbv beta. intros l [Hl HL]. split; [exact Hl|]. unfold in_range.
    pose proof (zlen_nonneg (concat (map e_ext l))). lia.
  - intros; reflexivity.
Qed.
Lemma parser_ext_vec : parser i_extension_vec wf_ext_vec.
Proof.
  eapply parser_weaken.
  - eapply parser_vec; [exact parser_ext | apply ext_size_pos].
  - cbv beta. intros l [F R]. rewrite (data_size_enc _ _ _ _ codec_ext F) in R.
    unfold in_range in R. split; [exact F|lia].
Qed.
Lemma codec_exts : codec_last i_extensions wf_exts e_exts.
Proof.
  eapply codec_last_weaken.
  - eapply codec_option; [exact codec_ext_vec|]. intros a _ E. apply (f_equal (@length byte)) in E.
    unfold e_ext_vec, sp_vec in E. rewrite app_length, be_length in E. cbn in E. lia.
  - intros [l|]; auto.
  - intros [l|] _; reflexivity.
Qed.
Lemma e_ext_vec_nonempty l : e_ext_vec l <> [].
Proof.
  intros E. apply (f_equal (@length byte)) in E.
  unfold e_ext_vec, sp_vec in E. rewrite app_length, be_length in E. cbn in E. lia.
Qed.
(** reading the optional extension block: total; [Some] exactly when bytes are present; what follows the
    vector is dropped *)
Lemma exts_read_inv bs o rest :
  tls_read i_extensions bs = Ok (o, rest) ->
  rest = [] /\ wf_exts o /\ exists junk, bs = e_exts o ++ junk /\ (o = None -> junk = []).
Proof.
  unfold i_extensions. cbn [tls_read i_option]. destruct bs as [|b bs].
  - intros E; injection E as <- <-. cbn. split; [reflexivity|]. split; [exact I|]. exists []. auto.
  - intros H. apply rbind_ok in H as ([l r] & HL & E). injection E as <- <-.
    split; [reflexivity|]. pose proof (pa_wf _ _ parser_ext_vec _ _ _ HL) as W. split; [exact W|].
    apply (pa_canon _ _ parser_ext_vec) in HL as (w & -> & _ & C).
    exists r. cbn [e_exts]. rewrite (C _ (co_write _ _ _ codec_ext_vec l W)). split; [reflexivity|discriminate].
Qed.
Lemma exts_read_value bs : is_value (tls_read i_extensions bs).
Proof.
  unfold i_extensions. cbn [tls_read i_option]. destruct bs; [exact I|].
  apply rbind_value; [apply parser_ext_vec|]. intros [l r] _. exact I.
Qed.

(** *** Hellos *)

Lemma codec_session : codec i_session_id (fun l => in_range 0 (zlen l) 32) (sp_vec 1).
Proof. apply (codec_opaque 0 32). lia. Qed.
Lemma parser_session : parser i_session_id (fun l => in_range 0 (zlen l) 32).
Proof. apply (parser_opaque 0 32). Qed.

Lemma codec_suite_vec : codec i_cipher_suite_vec
  (fun l => Forall wf_suite l /\ in_range 2 (2 * zlen l) 65534) (fun l => sp_vec 2 (concat (map e_suite l))).
Proof.
  eapply codec_weaken;
  [ eapply codec_vec; [exact codec_suite | intros; cbn; lia | lia] | | reflexivity ].
  cbv beta. intros l [F R]. split; [exact F|].
  rewrite <- (data_size_enc _ _ _ _ codec_suite F), (data_size_fixed i_cipher_suite 2 l (fun _ => eq_refl)). exact R.
Qed.
Lemma parser_suite_vec : parser i_cipher_suite_vec (fun l => in_range 2 (2 * zlen l) 65534).
Proof. fixed_parser parser_suite (fun l => data_size_fixed i_cipher_suite 2 l (fun _ => eq_refl)). Qed.

Lemma zlen_comp a : zlen (e_comp a) = 1. Proof. reflexivity. Qed.
Lemma codec_comp : codec i_compression (fun _ => True) e_comp.
Proof. eapply codec_weaken; [apply codec_enum; exact ok_compression | auto |]. intros [] _; reflexivity. Qed.
Lemma codec_comp_vec : codec i_compression_vec (fun l => in_range 1 (zlen l) 255)
  (fun l => sp_vec 1 (concat (map e_comp l))).
Proof.
  eapply codec_weaken;
  [ eapply codec_vec; [exact codec_comp | intros; cbn; lia | lia] | | reflexivity ].
  cbv beta. intros l Hl. rewrite (zlen_concat_fixed e_comp 1 l zlen_comp), Z.mul_1_l.
  split; [apply Forall_forall; auto | exact Hl].
Qed.
Lemma parser_comp_vec : parser i_compression_vec (fun l => in_range 1 (zlen l) 255).
Proof.
  eapply parser_weaken;
  [ eapply parser_vec; [exact (parser_enum 1 compression_code compression_all) | intros; cbn; lia] | ].
  cbv beta. intros l [_ Hl]. rewrite (data_size_fixed i_compression 1 l (fun _ => eq_refl)), Z.mul_1_l in Hl.
  exact Hl.
Qed.

Lemma codec_client_hello : codec_last i_client_hello wf_client_hello e_client_hello.
Proof.
  eapply codec_last_weaken.
  - eapply codec_last_map.
    + eapply codec_pair_last; [exact codec_version|].
      eapply codec_pair_last; [apply codec_array|].
      eapply codec_pair_last; [exact codec_session|].
      eapply codec_pair_last; [exact codec_suite_vec|].
      eapply codec_pair_last; [exact codec_comp_vec|]. exact codec_exts.
    + intros []; reflexivity.
  - cbv beta. cbn [fst snd]. intros a (H1 & H2 & H3 & H4 & H5). unfold in_range in *.
    pose proof (zlen_nonneg (ch_session a)). split; [exact I|]. split; [exact H1|]. split; [lia|].
    split; [exact H3|]. split; assumption.
  - intros; reflexivity.
Qed.
Lemma codec_server_hello : codec_last i_server_hello wf_server_hello e_server_hello.
Proof.
  eapply codec_last_weaken.
  - eapply codec_last_map.
    + eapply codec_pair_last; [exact codec_version|].
      eapply codec_pair_last; [apply codec_array|].
      eapply codec_pair_last; [exact codec_session|].
      eapply codec_pair_last; [exact codec_suite|].
      eapply codec_pair_last; [exact codec_comp|]. exact codec_exts.
    + intros []; reflexivity.
  - cbv beta. cbn [fst snd]. intros a ((H1 & H2 & H3) & H4). unfold in_range in *.
    pose proof (zlen_nonneg (sh_session a)). split; [exact I|]. split; [exact H1|]. split; [lia|].
    split; [exact H4|]. split; [exact I|assumption].
  - intros; reflexivity.
Qed.

Lemma pair_value {A B} (IA : item A) (IB : item B) pwf bs :
  parser IA pwf -> (forall r, is_value (tls_read IB r)) -> is_value (tls_read (i_pair IA IB) bs).
Proof.
  intros P H. cbn [tls_read i_pair]. apply rbind_value; [apply P|]. intros [a r] _.
  apply rbind_value; [apply H|]. intros [b r'] _. exact I.
Qed.
Lemma map_value {A B} (f : A -> B) g (IA : item A) bs :
  is_value (tls_read IA bs) -> is_value (tls_read (i_map f g IA) bs).
Proof. intros H. cbn [tls_read i_map]. apply rbind_value; [exact H|]. intros [a r] _. exact I. Qed.
Lemma pair_inv {A B} (IA : item A) (IB : item B) bs p rest :
  tls_read (i_pair IA IB) bs = Ok (p, rest) ->
  exists r, tls_read IA bs = Ok (fst p, r) /\ tls_read IB r = Ok (snd p, rest).
Proof.
  cbn [tls_read i_pair]. intros H. apply rbind_ok in H as ([a r] & HA & H).
  apply rbind_ok in H as ([b r'] & HB & E). injection E as <- <-. exists r. auto.
Qed.

Lemma client_hello_value bs : is_value (tls_read i_client_hello bs).
Proof.
  apply map_value. eapply pair_value; [exact parser_version|]. intros r1.
  eapply pair_value; [apply parser_array|]. intros r2. eapply pair_value; [exact parser_session|]. intros r3.
  eapply pair_value; [exact parser_suite_vec|]. intros r4. eapply pair_value; [exact parser_comp_vec|].
  intros r5. apply exts_read_value.
Qed.
Lemma server_hello_value bs : is_value (tls_read i_server_hello bs).
Proof.
  apply map_value. eapply pair_value; [exact parser_version|]. intros r1.
  eapply pair_value; [apply parser_array|]. intros r2. eapply pair_value; [exact parser_session|]. intros r3.
  eapply pair_value; [exact parser_suite|]. intros r4.
  eapply pair_value; [apply parser_enum|]. intros r5. apply exts_read_value.
Qed.

Lemma parser_canon_wf {A} (I : item A) pwf wf enc bs a rest :
  parser I pwf -> codec I wf enc -> tls_read I bs = Ok (a, rest) -> wf a -> bs = enc a ++ rest.
Proof.
  intros P C H W. apply (pa_canon _ _ P) in H as (w & -> & _ & CW).
  rewrite (CW _ (co_write _ _ _ C a W)). reflexivity.
Qed.

(** an accepted ServerHello body: its fields, and exactly the bytes of its re-serialisation followed by the
    junk that [tls_option!] dropped *)
Lemma server_hello_inv bs h rest :
  tls_read i_server_hello bs = Ok (h, rest) ->
  rest = [] /\ wf_server_hello' h /\
  (wf_suite (sh_suite h) -> exists junk, bs = e_server_hello h ++ junk /\ (sh_exts h = None -> junk = [])).
Proof.
  intros H. cbn [tls_read i_server_hello i_map] in H. apply rbind_ok in H as ([p r] & H & E).
  apply pair_inv in H as (r1 & H1 & H). apply pair_inv in H as (r2 & H2 & H).
  apply pair_inv in H as (r3 & H3 & H). apply pair_inv in H as (r4 & H4 & H).
  apply pair_inv in H as (r5 & H5 & H6).
  destruct p as (v & rd & s & c & m & e). cbn [fst snd] in *. injection E as <- <-.
  apply exts_read_inv in H6 as (-> & W6 & junk & -> & J).
  pose proof (pa_wf _ _ (parser_array 32) _ _ _ H2) as W2.
  pose proof (pa_wf _ _ parser_session _ _ _ H3) as W3.
  split; [reflexivity|]. split; [unfold in_range in W3; repeat split; cbn; auto; lia|].
  cbn [sh_suite sh_exts]. intros W4. exists junk. split; [|exact J]. unfold e_server_hello.
  cbn [sh_version sh_random sh_session sh_suite sh_comp sh_exts].
  rewrite (parser_canon_wf _ _ _ _ _ _ _ parser_version codec_version H1 I).
  rewrite (parser_canon_wf _ _ _ _ _ _ _ (parser_array 32) (codec_array 32) H2 W2).
  rewrite (parser_canon_wf _ _ _ _ _ _ _ parser_session codec_session H3 W3).
  rewrite (parser_canon_wf _ _ _ _ _ _ _ parser_suite codec_suite H4 W4).
  rewrite (parser_canon_wf _ _ _ _ _ _ _ (parser_enum _ _ _) codec_comp H5 I).
  rewrite <- !app_assoc. reflexivity.
Qed.

Lemma client_hello_inv bs h rest :
  tls_read i_client_hello bs = Ok (h, rest) ->
  rest = [] /\ (Forall wf_suite (ch_suites h) -> wf_client_hello h /\
    exists junk, bs = e_client_hello h ++ junk /\ (ch_exts h = None -> junk = [])).
Proof.
  intros H. cbn [tls_read i_client_hello i_map] in H. apply rbind_ok in H as ([p r] & H & E).
  apply pair_inv in H as (r1 & H1 & H). apply pair_inv in H as (r2 & H2 & H).
  apply pair_inv in H as (r3 & H3 & H). apply pair_inv in H as (r4 & H4 & H).
  apply pair_inv in H as (r5 & H5 & H6).
  destruct p as (v & rd & s & c & m & e). cbn [fst snd] in *. injection E as <- <-.
  apply exts_read_inv in H6 as (-> & W6 & junk & -> & J).
  pose proof (pa_wf _ _ (parser_array 32) _ _ _ H2) as W2.
  pose proof (pa_wf _ _ parser_session _ _ _ H3) as W3.
  pose proof (pa_wf _ _ parser_suite_vec _ _ _ H4) as W4.
  pose proof (pa_wf _ _ parser_comp_vec _ _ _ H5) as W5.
  split; [reflexivity|]. cbn [ch_suites ch_exts]. intros WS.
  split. { unfold in_range in W3. unfold wf_client_hello; cbn [ch_random ch_session ch_suites ch_comps ch_exts].
    repeat split; auto; try lia; try apply W4; try apply W5. }
  exists junk. split; [|exact J]. unfold e_client_hello.
  cbn [ch_version ch_random ch_session ch_suites ch_comps ch_exts].
  rewrite (parser_canon_wf _ _ _ _ _ _ _ parser_version codec_version H1 I).
  rewrite (parser_canon_wf _ _ _ _ _ _ _ (parser_array 32) (codec_array 32) H2 W2).
  rewrite (parser_canon_wf _ _ _ _ _ _ _ parser_session codec_session H3 W3).
  rewrite (parser_canon_wf _ _ _ _ _ _ _ parser_suite_vec codec_suite_vec H4 (conj WS W4)).
  rewrite (parser_canon_wf _ _ _ _ _ _ _ parser_comp_vec codec_comp_vec H5 W5).
  rewrite <- !app_assoc. reflexivity.
Qed.

(** *** Certificates *)
Lemma codec_asn1 : codec i_asn1_cert (fun c => in_range 1 (zlen c) (2 ^ 24 - 1)) (sp_vec 3).
Proof. apply (codec_opaque 1 (2 ^ 24 - 1)). lia. Qed.
Lemma parser_asn1 : parser i_asn1_cert (fun c => in_range 1 (zlen c) (2 ^ 24 - 1)).
Proof. apply (parser_opaque 1 (2 ^ 24 - 1)). Qed.
Lemma opaque_size_pos mn mx (a : bytes) : 1 <= tls_size (i_vec i_u8 mn mx) a.
Proof.
  cbn [tls_size i_vec]. rewrite data_size_u8. pose proof (zlen_nonneg a).
  unfold vec_width. repeat match goal with |- context [if ?c then _ else _] => destruct c end; lia.
Qed.
Lemma codec_cert_list : codec i_certificate_list wf_cert_list e_cert_list.
Proof.
  eapply codec_weaken.
  - eapply codec_vec; [exact codec_asn1 | intros a _; apply opaque_size_pos | lia].
  - cbv beta. intros l [F R]. split; [exact F|]. unfold in_range.
    pose proof (zlen_nonneg (concat (map (sp_vec 3) l))). lia.
  - intros; reflexivity.
Qed.
Lemma parser_cert_list : parser i_certificate_list wf_cert_list.
Proof.
  eapply parser_weaken.
  - eapply parser_vec; [exact parser_asn1 | apply opaque_size_pos].
  - cbv beta. intros l [F R]. rewrite (data_size_enc _ _ _ _ codec_asn1 F) in R. split; [exact F|apply R].
Qed.

Lemma zlen_cert_type a : zlen (e_cert_type a) = 1. Proof. reflexivity. Qed.
Lemma codec_cert_type : codec i_cert_type (fun _ => True) e_cert_type.
Proof. eapply codec_weaken; [apply codec_enum; exact ok_cert_type | auto |]. intros [] _; reflexivity. Qed.
Lemma codec_cert_type_vec : codec i_cert_type_vec (fun l => in_range 1 (zlen l) 255)
  (fun l => sp_vec 1 (concat (map e_cert_type l))).
Proof.
  eapply codec_weaken;
  [ eapply codec_vec; [exact codec_cert_type | intros; cbn; lia | lia] | | reflexivity ].
  cbv beta. intros l Hl. rewrite (zlen_concat_fixed e_cert_type 1 l zlen_cert_type), Z.mul_1_l.
  split; [apply Forall_forall; auto | exact Hl].
Qed.
Lemma parser_cert_type_vec : parser i_cert_type_vec (fun l => in_range 1 (zlen l) 255).
Proof.
  eapply parser_weaken;
  [ eapply parser_vec; [exact (parser_enum 1 cert_type_code cert_type_all) | intros; cbn; lia] | ].
  cbv beta. intros l [_ Hl]. rewrite (data_size_fixed i_cert_type 1 l (fun _ => eq_refl)), Z.mul_1_l in Hl.
  exact Hl.
Qed.
Lemma codec_dn : codec i_dn (fun c => in_range 1 (zlen c) 65535) (sp_vec 2).
Proof. apply (codec_opaque 1 (2 ^ 16 - 1)). lia. Qed.
Lemma parser_dn : parser i_dn (fun c => in_range 1 (zlen c) 65535).
Proof. apply (parser_opaque 1 (2 ^ 16 - 1)). Qed.
Lemma codec_dn_vec : codec i_dn_vec
  (fun l => Forall (fun c => in_range 1 (zlen c) 65535) l /\ zlen (concat (map (sp_vec 2) l)) <= 65535)
  (fun l => sp_vec 2 (concat (map (sp_vec 2) l))).
Proof.
  eapply codec_weaken.
  - eapply codec_vec; [exact codec_dn | intros a _; apply opaque_size_pos | lia].
  - cbv beta. intros l [F R]. split; [exact F|]. unfold in_range.
    pose proof (zlen_nonneg (concat (map (sp_vec 2) l))). lia.
  - intros; reflexivity.
Qed.
Lemma parser_dn_vec : parser i_dn_vec
  (fun l => Forall (fun c => in_range 1 (zlen c) 65535) l /\ zlen (concat (map (sp_vec 2) l)) <= 65535).
Proof.
  eapply parser_weaken.
  - eapply parser_vec; [exact parser_dn | apply opaque_size_pos].
  - cbv beta. intros l [F R]. rewrite (data_size_enc _ _ _ _ codec_dn F) in R. split; [exact F|apply R].
Qed.
Lemma codec_cert_request : codec i_cert_request wf_cert_request e_cert_request.
Proof.
  eapply codec_weaken.
  - eapply codec_map.
    + eapply codec_pair; [exact codec_cert_type_vec|]. eapply codec_pair; [exact codec_sig_hash_vec|].
      exact codec_dn_vec.
    + intros []; reflexivity.
  - cbv beta. cbn [fst snd]. intros a (H1 & H2 & H3 & H4). auto.
  - intros; reflexivity.
Qed.
Lemma parser_cert_request : parser i_cert_request wf_cert_request.
Proof.
  eapply parser_weaken.
  - eapply parser_map.
    + eapply parser_pair; [exact parser_cert_type_vec|]. eapply parser_pair; [exact parser_sig_hash_vec|].
      exact parser_dn_vec.
    + intros (t & a & c); reflexivity.
  - cbv beta. cbn [fst snd]. intros a (H1 & H2 & H3 & H4). repeat split; auto; try apply H1; apply H2.
Qed.

(** *** ECDHE ServerKeyExchange *)
Lemma codec_ec_parameters : codec i_ec_parameters (fun _ => True) (fun c => [x03] ++ e_curve c).
Proof.
  split; cbn [tls_write tls_read tls_size i_ec_parameters].
  - intros a _. rewrite (co_write _ _ _ codec_curve a I). reflexivity.
  - reflexivity.
  - intros a rest _. cbn [app]. rewrite rd_num_1_cons. cbn [rbind]. change (b2z x03 =? 3) with true. cbv iota.
    apply (co_read _ _ _ codec_curve a rest I).
Qed.
Lemma parser_ec_parameters : parser i_ec_parameters (fun _ => True).
Proof.
  split; cbn [tls_write tls_read tls_size i_ec_parameters]; auto.
  - intros bs. apply rbind_value; [apply rd_num_value|]. intros [n r] _.
    destruct (n =? 3); [apply parser_enum | exact I].
  - intros bs a rest H. apply rbind_ok in H as ([n r] & HN & H).
    destruct (Z.eqb_spec n 3) as [->|]; [|discriminate].
    apply rd_num_inv in HN as [-> _]. rewrite (parser_canon_wf _ _ _ _ _ _ _ (parser_enum _ _ _) codec_curve H I).
    exists ([x03] ++ e_curve a). split; [reflexivity|]. split; [reflexivity|].
    intros w' E. rewrite (co_write _ _ _ codec_curve a I) in E. injection E as <-. reflexivity.
  - intros a. cbn. exact I.
Qed.
Lemma codec_ske : codec i_ske wf_ske e_ske.
Proof.
  eapply codec_weaken.
  - eapply codec_map.
    + eapply codec_pair; [|exact codec_digitally_signed].
      eapply codec_pair; [exact codec_ec_parameters | apply (codec_opaque 1 (2 ^ 8 - 1)); lia].
    + intros []; reflexivity.
  - cbv beta. cbn [fst snd]. intros a [H1 H2]. split; [split; [exact I|exact H1]|exact H2].
  - intros; reflexivity.
Qed.
Lemma parser_ske : parser i_ske wf_ske.
Proof.
  eapply parser_weaken.
  - eapply parser_map.
    + eapply parser_pair; [|exact parser_digitally_signed].
      eapply parser_pair; [exact parser_ec_parameters | apply (parser_opaque 1 (2 ^ 8 - 1))].
    + intros ((c & p) & s); reflexivity.
  - cbv beta. cbn [fst snd]. intros a ((_ & H1) & H2). split; assumption.
Qed.
Lemma codec_ec_data : codec i_ec_data (fun l => in_range 1 (zlen l) 255) (sp_vec 1).
Proof. apply (codec_opaque 1 255). lia. Qed.

(** *** Handshake messages *)

Lemma be3_join n1 n2 n3 : 0 <= n1 < 256 -> 0 <= n2 < 256 -> 0 <= n3 < 256 ->
  be 3 (n1 * 65536 + n2 * 256 + n3) = [z2b n1; z2b n2; z2b n3].
Proof.
  intros H1 H2 H3. cbn [be]. change (256 ^ Z.of_nat 2) with 65536. change (256 ^ Z.of_nat 1) with 256.
  change (256 ^ Z.of_nat 0) with 1. rewrite Z.div_1_r.
  rewrite (z2b_eq_mod ((n1 * 65536 + n2 * 256 + n3) / 65536) n1) by lia.
  rewrite (z2b_eq_mod ((n1 * 65536 + n2 * 256 + n3) / 256) n2) by lia.
  rewrite (z2b_eq_mod (n1 * 65536 + n2 * 256 + n3) n3) by lia. reflexivity.
Qed.

Lemma hs_read_split bs h rest :
  hs_read bs = Ok (h, rest) <->
  exists ty n body, bs = be 1 ty ++ be 3 n ++ body /\ 0 <= ty < 256 /\ 0 <= n < 2 ^ 24 /\
    hs_read_ty ty body = Ok (h, []) /\ rest = [].
Proof.
  unfold hs_read. split.
  - intros H. apply rbind_ok in H as ([ty r0] & H0 & H). apply rbind_ok in H as ([n1 r1] & H1 & H).
    apply rbind_ok in H as ([n2 r2] & H2 & H). apply rbind_ok in H as ([n3 r3] & H3 & H).
    apply rbind_ok in H as ([h' r4] & H4 & H).
    apply rd_num_inv in H0 as [-> R0]. apply rd_num_inv in H1 as [-> R1].
    apply rd_num_inv in H2 as [-> R2]. apply rd_num_inv in H3 as [-> R3].
    change (256 ^ Z.of_nat 1) with 256 in *.
    destruct r4 as [|b r4].
    2:{ rewrite rd_num_1_cons in H. discriminate. }
    rewrite rd_num_1_nil in H. injection H as <- <-.
    exists ty, (n1 * 65536 + n2 * 256 + n3), r3. split.
    { rewrite be3_join by assumption. rewrite !be1. reflexivity. }
    repeat split; auto; try lia.
  - intros (ty & n & body & -> & RT & RN & H & ->).
    rewrite rd_num_app by (cbn; lia). cbn [rbind].
    replace (be 3 n) with (be 1 (n / 65536) ++ be 1 ((n / 256) mod 256) ++ be 1 (n mod 256)).
    2:{ rewrite !be1. cbn [app]. rewrite <- be3_join by lia. f_equal. lia. }
    rewrite <- !app_assoc.
    rewrite rd_num_app by (cbn; lia). cbn [rbind].
    rewrite rd_num_app by (cbn; lia). cbn [rbind].
    rewrite rd_num_app by (cbn; lia). cbn [rbind].
    rewrite H. cbn [rbind]. rewrite rd_num_1_nil. reflexivity.
Qed.

Lemma hs_body_value {A} (I : item A) mk bs :
  is_value (tls_read I bs) -> is_value (hs_read_body I mk bs).
Proof. intros H. apply rbind_value; [exact H|]. intros [a r] _. exact Logic.I. Qed.

Lemma hs_read_ty_value ty bs : is_value (hs_read_ty ty bs).
Proof.
  unfold hs_read_ty.
  repeat match goal with |- context [if ?c then _ else _] => destruct c end; try exact I;
    apply hs_body_value; try exact I.
  - apply client_hello_value.
  - apply server_hello_value.
  - apply parser_cert_list.
  - apply parser_cert_request.
  - apply (parser_array 12).
Qed.

Lemma hs_read_value bs : is_value (hs_read bs).
Proof.
  unfold hs_read. do 4 (apply rbind_value; [apply rd_num_value|]; intros [? ?] _).
  apply rbind_value; [apply hs_read_ty_value|]. intros [h r'] _. destruct (rd_num 1 r'); exact I.
Qed.

Lemma hs_write_enc h : wf_handshake h -> hs_write h = Ok (e_handshake h).
Proof.
  intros [W L]. unfold e_handshake, sp_vec.
  destruct h; cbn [hs_write wf_hs_body e_hs_body hs_type] in *; unfold hs_write_body, wr_num; rewrite be1.
  - reflexivity.
  - rewrite (cl_write _ _ _ codec_client_hello), (cl_size _ _ _ codec_client_hello) by assumption. reflexivity.
  - rewrite (cl_write _ _ _ codec_server_hello), (cl_size _ _ _ codec_server_hello) by assumption. reflexivity.
  - rewrite (co_write _ _ _ codec_cert_list), (co_size _ _ _ codec_cert_list) by assumption. reflexivity.
  - reflexivity.
  - rewrite (co_write _ _ _ codec_cert_request), (co_size _ _ _ codec_cert_request) by assumption. reflexivity.
  - reflexivity.
  - reflexivity.
  - rewrite (co_write _ _ _ (codec_array 12)), (co_size _ _ _ (codec_array 12)) by assumption. reflexivity.
Qed.

Lemma hs_size_enc h : wf_hs_body h -> hs_size h = zlen (e_handshake h).
Proof.
  intros W. unfold e_handshake, sp_vec, hs_size.
  rewrite !zlen_app, zlen_be. change (zlen [z2b (hs_type h)]) with 1.
  change (Z.of_nat 3) with 3.
  assert (E : match h with
  | hello_request => tls_size i_dummy tt
  | client_hello_msg b => tls_size i_client_hello b
  | server_hello_msg b => tls_size i_server_hello b
  | certificate b => tls_size i_certificate_list b
  | server_key_exchange b => tls_size i_obscure b
  | certificate_request b => tls_size i_cert_request b
  | server_hello_done => tls_size i_dummy tt
  | client_key_exchange b => tls_size i_obscure b
  | finished b => tls_size i_verify_data b
  end = zlen (e_hs_body h)); [|rewrite E; lia].
  destruct h; cbn [wf_hs_body e_hs_body] in *; try reflexivity.
  - apply (cl_size _ _ _ codec_client_hello); assumption.
  - apply (cl_size _ _ _ codec_server_hello); assumption.
  - apply (co_size _ _ _ codec_cert_list); assumption.
  - apply (co_size _ _ _ codec_cert_request); assumption.
  - apply (co_size _ _ _ (codec_array 12)); assumption.
Qed.

Lemma hs_read_ty_enc h : wf_hs_body h -> hs_read_ty (hs_type h) (e_hs_body h) = Ok (h, []).
Proof.
  intros W. destruct h; cbn [hs_type e_hs_body wf_hs_body] in *; unfold hs_read_ty; cbn [Z.eqb Pos.eqb];
    unfold hs_read_body.
  - reflexivity.
  - rewrite (cl_read _ _ _ codec_client_hello) by assumption. reflexivity.
  - rewrite (cl_read _ _ _ codec_server_hello) by assumption. reflexivity.
  - rewrite (cl_read _ _ _ (codec_to_last _ _ _ codec_cert_list)) by assumption. reflexivity.
  - reflexivity.
  - rewrite (cl_read _ _ _ (codec_to_last _ _ _ codec_cert_request)) by assumption. reflexivity.
  - reflexivity.
  - reflexivity.
  - change i_verify_data with (i_array 12).
    rewrite (cl_read _ _ _ (codec_to_last _ _ _ (codec_array 12))) by assumption. reflexivity.
Qed.

Lemma hs_type_range h : 0 <= hs_type h < 256.
Proof. destruct h; cbn; lia. Qed.

Lemma hs_read_enc h : wf_handshake h -> hs_read (e_handshake h) = Ok (h, []).
Proof.
  intros [W L]. apply hs_read_split. exists (hs_type h), (zlen (e_hs_body h)), (e_hs_body h).
  split; [unfold e_handshake, sp_vec; rewrite be1; reflexivity|]. split; [apply hs_type_range|].
  pose proof (zlen_nonneg (e_hs_body h)). split; [lia|]. split; [apply hs_read_ty_enc; exact W|reflexivity].
Qed.

(** ** [HandshakeBuffer::get_message] *)

(** announced length of the message at the head of the buffer *)
Definition announced (buf : bytes) : Z :=
  be_val [nth 1 buf x00; nth 2 buf x00; nth 3 buf x00].

Lemma lor_shift_add a b k : 0 <= k -> 0 <= b < 2 ^ k -> 0 <= a -> Z.lor (Z.shiftl a k) b = a * 2 ^ k + b.
Proof.
  intros Hk Hb Ha.
  assert (L : Z.land (Z.shiftl a k) b = 0).
  { apply Z.bits_inj'. intros i Hi. rewrite Z.land_spec, Z.bits_0.
    destruct (Z.ltb_spec i k).
    - rewrite Z.shiftl_spec_low by lia. reflexivity.
    - rewrite <- (Z.mod_small b (2 ^ k)) by exact Hb. rewrite Z.mod_pow2_bits_high by lia. apply andb_false_r. }
  rewrite <- (Z.lxor_lor _ _ L), <- (Z.add_nocarry_lxor _ _ L).
  rewrite Z.shiftl_mul_pow2 by exact Hk. reflexivity.
Qed.

Lemma wanted_len_eq x y z :
  Z.lor (Z.lor (Z.shiftl (b2z x) 16) (Z.shiftl (b2z y) 8)) (b2z z) = be_val [x; y; z].
Proof.
  pose proof (b2z_range x). pose proof (b2z_range y). pose proof (b2z_range z).
  rewrite <- Z.lor_assoc. rewrite (lor_shift_add (b2z y) (b2z z) 8) by (cbn; lia).
  rewrite lor_shift_add; [|lia| |lia].
  - unfold be_val. cbn [be_val_acc]. change (2 ^ 16) with 65536. change (2 ^ 8) with 256. lia.
  - change (2 ^ 16) with 65536. change (2 ^ 8) with 256. lia.
Qed.

(** how [get_message] cuts the buffer, in terms of a header (1 type byte, 3 length bytes) and a body *)
Lemma get_message_short buf : zlen buf < 4 -> get_message buf = (Ok None, buf).
Proof. intros H. unfold get_message. destruct (Z.ltb_spec (zlen buf) 4); [reflexivity|lia]. Qed.

Lemma be3_bytes n : 0 <= n < 2 ^ 24 -> exists x y z, be 3 n = [x; y; z] /\ be_val [x; y; z] = n.
Proof.
  intros H. exists (z2b (n / 256 ^ 2)), (z2b (n / 256 ^ 1)), (z2b (n / 256 ^ 0)). split; [reflexivity|].
  change [z2b (n / 256 ^ 2); z2b (n / 256 ^ 1); z2b (n / 256 ^ 0)] with (be 3 n).
  rewrite be_val_be. apply Z.mod_small. exact H.
Qed.

Lemma get_message_framed ty n body rest :
  0 <= n < 2 ^ 24 -> zlen body = n ->
  get_message ((ty :: be 3 n ++ body) ++ rest) =
    (match hs_read (ty :: be 3 n ++ body) with
     | Ok (h, _) => Ok (Some h) | Err k => Err k | Panic => Panic | Diverge => Diverge end, rest).
Proof.
  intros R L. destruct (be3_bytes n R) as (x & y & z & E & V). rewrite E. cbn [app].
  unfold get_message. cbn [nth]. rewrite wanted_len_eq, V.
  assert (HL : zlen (ty :: x :: y :: z :: body ++ rest) = 4 + n + zlen rest).
  { rewrite !zlen_cons, zlen_app. lia. }
  pose proof (zlen_nonneg rest). rewrite HL.
  destruct (Z.ltb_spec (4 + n + zlen rest) 4); [lia|].
  destruct (Z.ltb_spec (4 + n + zlen rest) (n + 4)); [lia|].
  assert (N : Z.to_nat (n + 4) = length (ty :: x :: y :: z :: body)).
  { cbn [length]. unfold zlen in L. lia. }
  rewrite N. change (ty :: x :: y :: z :: body ++ rest) with ((ty :: x :: y :: z :: body) ++ rest).
  rewrite firstn_app, skipn_app, Nat.sub_diag, firstn_all, skipn_all. cbn [firstn skipn app].
  rewrite app_nil_r.
  destruct (hs_read (ty :: x :: y :: z :: body)) as [[h ?]| | |]; reflexivity.
Qed.

Lemma get_message_incomplete ty n body :
  0 <= n < 2 ^ 24 -> zlen body < n ->
  get_message (ty :: be 3 n ++ body) = (Ok None, ty :: be 3 n ++ body).
Proof.
  intros R L. destruct (be3_bytes n R) as (x & y & z & E & V). rewrite E. cbn [app].
  unfold get_message. cbn [nth]. rewrite wanted_len_eq, V.
  rewrite !zlen_cons. pose proof (zlen_nonneg body).
  destruct (Z.ltb_spec (1 + (1 + (1 + (1 + zlen body)))) 4); [lia|].
  destruct (Z.ltb_spec (1 + (1 + (1 + (1 + zlen body)))) (n + 4)); [reflexivity|lia].
Qed.

(** every buffer has exactly one of the three shapes *)
Lemma buffer_cases buf :
  zlen buf < 4 \/
  (exists ty n body, 0 <= n < 2 ^ 24 /\ zlen body < n /\ buf = ty :: be 3 n ++ body) \/
  (exists ty n body rest, 0 <= n < 2 ^ 24 /\ zlen body = n /\ buf = (ty :: be 3 n ++ body) ++ rest).
Proof.
  destruct buf as [|ty [|x [|y [|z t]]]]; try (left; cbn; lia). right.
  assert (E : be 3 (be_val [x; y; z]) = [x; y; z]) by (apply (be_be_val [x; y; z])).
  pose proof (be_val_range [x; y; z]) as R. change (256 ^ Z.of_nat (length [x; y; z])) with (2 ^ 24) in R.
  set (n := be_val [x; y; z]) in *.
  destruct (Z.ltb_spec (zlen t) n).
  - left. exists ty, n, t. rewrite E. auto.
  - right. exists ty, n, (firstn (Z.to_nat n) t), (skipn (Z.to_nat n) t). split; [exact R|].
    split; [unfold zlen in *; rewrite firstn_length; lia|]. rewrite E. cbn [app]. rewrite firstn_skipn. reflexivity.
Qed.

Lemma get_message_value buf : is_value (fst (get_message buf)).
Proof.
  destruct (buffer_cases buf) as [H|[(ty & n & body & R & L & ->)|(ty & n & body & rest & R & L & ->)]].
  - rewrite get_message_short by exact H. exact I.
  - rewrite get_message_incomplete by assumption. exact I.
  - rewrite get_message_framed by assumption. cbn [fst].
    pose proof (hs_read_value (ty :: be 3 n ++ body)) as V.
    destruct (hs_read _) as [[? ?]| | |]; try exact I; exact V.
Qed.

Lemma get_message_enc h rest :
  wf_handshake h -> get_message (e_handshake h ++ rest) = (Ok (Some h), rest).
Proof.
  intros W. pose proof (hs_read_enc h W) as R. destruct W as [W L]. unfold e_handshake, sp_vec in *.
  pose proof (zlen_nonneg (e_hs_body h)). cbn [app] in *.
  change (z2b (hs_type h) :: (be 3 (zlen (e_hs_body h)) ++ e_hs_body h) ++ rest)
    with ((z2b (hs_type h) :: be 3 (zlen (e_hs_body h)) ++ e_hs_body h) ++ rest).
  rewrite get_message_framed; [|lia|reflexivity]. rewrite R. reflexivity.
Qed.

(** a proper prefix of a message is not a message yet *)
Lemma get_message_prefix h p q :
  wf_handshake h -> e_handshake h = p ++ q -> q <> [] -> get_message p = (Ok None, p).
Proof.
  intros [W L] E Q. destruct (Z.ltb_spec (zlen p) 4) as [S|S]; [apply get_message_short; exact S|].
  unfold e_handshake, sp_vec in E. pose proof (zlen_nonneg (e_hs_body h)) as NN.
  assert (HQ : 1 <= zlen q) by (destruct q; [contradiction|rewrite zlen_cons; pose proof (zlen_nonneg q); lia]).
  destruct (be3_bytes (zlen (e_hs_body h))) as (x & y & z & E3 & V); [lia|]. rewrite E3 in E. cbn [app] in E.
  destruct p as [|p0 [|p1 [|p2 [|p3 p]]]]; try (cbn in S; lia).
  cbn [app] in E. injection E as <- <- <- <- E.
  change (z2b (hs_type h) :: x :: y :: z :: p) with (z2b (hs_type h) :: [x; y; z] ++ p). rewrite <- E3.
  apply get_message_incomplete; [lia|]. rewrite E, zlen_app. lia.
Qed.

(** what an accepted message looks like *)
Definition hs_exact (h : handshake) : Prop :=
  match h with client_hello_msg _ | server_hello_msg _ => False | _ => True end.

Lemma hs_read_ty_inv ty body h :
  hs_read_ty ty body = Ok (h, []) ->
  ty = hs_type h /\
  match h with
  | client_hello_msg b => Forall wf_suite (ch_suites b) ->
      wf_client_hello b /\ exists junk, body = e_client_hello b ++ junk /\ (ch_exts b = None -> junk = [])
  | server_hello_msg b => wf_server_hello' b /\ (wf_suite (sh_suite b) ->
      exists junk, body = e_server_hello b ++ junk /\ (sh_exts b = None -> junk = []))
  | _ => wf_hs_body h /\ body = e_hs_body h
  end.
Proof.
  intros H. unfold hs_read_ty, hs_read_body in H.
  destruct (Z.eqb_spec ty 0) as [->|]; [|destruct (Z.eqb_spec ty 1) as [->|]; [|destruct (Z.eqb_spec ty 2) as [->|];
    [|destruct (Z.eqb_spec ty 11) as [->|]; [|destruct (Z.eqb_spec ty 12) as [->|]; [|destruct (Z.eqb_spec ty 13) as [->|];
    [|destruct (Z.eqb_spec ty 14) as [->|]; [|destruct (Z.eqb_spec ty 16) as [->|]; [|destruct (Z.eqb_spec ty 20) as [->|];
    [|discriminate]]]]]]]]];
  apply rbind_ok in H as ([b r] & H & E); injection E as <- ->; (split; [reflexivity|]).
  - cbn in H. injection H as _ ->. split; [exact I|reflexivity].
  - apply client_hello_inv in H as [_ H]. exact H.
  - apply server_hello_inv in H as [_ H]. exact H.
  - pose proof (pa_wf _ _ parser_cert_list _ _ _ H) as W. split; [exact W|].
    rewrite (parser_canon_wf _ _ _ _ _ _ _ parser_cert_list codec_cert_list H W). apply app_nil_r.
  - cbn in H. injection H as <-. split; [exact I|reflexivity].
  - pose proof (pa_wf _ _ parser_cert_request _ _ _ H) as W. split; [exact W|].
    rewrite (parser_canon_wf _ _ _ _ _ _ _ parser_cert_request codec_cert_request H W). apply app_nil_r.
  - cbn in H. injection H as _ ->. split; [exact I|reflexivity].
  - cbn in H. injection H as <-. split; [exact I|reflexivity].
  - pose proof (pa_wf _ _ (parser_array 12) _ _ _ H) as W. split; [exact W|].
    rewrite (parser_canon_wf _ _ _ _ _ _ _ (parser_array 12) (codec_array 12) H W). apply app_nil_r.
Qed.

(** an accepted message occupies exactly its announced length *)
Lemma get_message_inv buf h rest :
  get_message buf = (Ok (Some h), rest) ->
  exists body, zlen body < 2 ^ 24 /\ buf = ([z2b (hs_type h)] ++ sp_vec 3 body) ++ rest /\
               hs_read_ty (hs_type h) body = Ok (h, []).
Proof.
  destruct (buffer_cases buf) as [H|[(ty & n & body & R & L & ->)|(ty & n & body & rest' & R & L & ->)]].
  - rewrite get_message_short by exact H. discriminate.
  - rewrite get_message_incomplete by assumption. discriminate.
  - rewrite get_message_framed by assumption. intros E.
    destruct (hs_read (ty :: be 3 n ++ body)) as [[h' q]| | |] eqn:HR; try discriminate.
    injection E as -> ->. apply hs_read_split in HR as (t & n' & body' & E & RT & RN & HT & ->).
    rewrite be1 in E. change (ty :: be 3 n ++ body) with ([ty] ++ be 3 n ++ body) in E.
    apply app_inj_length in E as [E0 E]; [|reflexivity].
    apply app_inj_length in E as [E1 E2]; [|rewrite !be_length; reflexivity]. subst body'. injection E0 as ->.
    pose proof (hs_read_ty_inv _ _ _ HT) as [-> _].
    exists body. split; [lia|]. split; [|exact HT]. unfold sp_vec. rewrite L. reflexivity.
Qed.

(** ** Sizes of whatever [tls_write] emits, without any bound *)
Definition sized {A} (I : item A) (inv : A -> Prop) : Prop :=
  forall a w, inv a -> tls_write I a = Ok w -> zlen w = tls_size I a.

Lemma sized_pair {A B} (IA : item A) (IB : item B) ia ib :
  sized IA ia -> sized IB ib -> sized (i_pair IA IB) (fun p => ia (fst p) /\ ib (snd p)).
Proof.
  intros HA HB [a b] w [Ia Ib] H. cbn [tls_write i_pair fst snd] in *.
  apply rbind_ok in H as (x & H1 & H). apply rbind_ok in H as (y & H2 & E). injection E as <-.
  rewrite zlen_app, (HA a x), (HB b y) by assumption. reflexivity.
Qed.
Lemma sized_map {A B} (f : A -> B) g (IA : item A) ia : sized IA ia -> sized (i_map f g IA) (fun b => ia (g b)).
Proof. intros H b w Ib E. exact (H (g b) w Ib E). Qed.
Lemma sized_weaken {A} (I : item A) (i j : A -> Prop) : sized I i -> (forall a, j a -> i a) -> sized I j.
Proof. intros H J a w Ja. apply H, J, Ja. Qed.
Lemma sized_vec {A} (I : item A) inv mn mx : sized I inv -> sized (i_vec I mn mx) (Forall inv).
Proof.
  intros HI l w F H. cbn [tls_write tls_size i_vec] in *. apply rbind_ok in H as (body & H & E). injection E as <-.
  unfold wr_num. rewrite zlen_app, zlen_be. f_equal.
  clear mn mx. revert body H. induction F as [|a l Ha F IH]; cbn [write_items]; intros body H.
  - injection H as <-. reflexivity.
  - apply rbind_ok in H as (x & H1 & H). apply rbind_ok in H as (y & H2 & E). injection E as <-.
    rewrite zlen_app, (HI a x Ha H1), (IH y H2). reflexivity.
Qed.
Lemma sized_option {A} (I : item A) inv : sized I inv ->
  sized (i_option I) (fun o => match o with Some a => inv a | None => True end).
Proof. intros H [a|] w Ia E; cbn in *; [exact (H a w Ia E)|injection E as <-; reflexivity]. Qed.
Lemma sized_u8 : sized i_u8 (fun _ => True).
Proof. intros a w _ E. injection E as <-. reflexivity. Qed.
Lemma sized_enum {A} w (code : A -> Z) all : sized (i_enum w code all) (fun _ => True).
Proof. intros a x _ E. injection E as <-. unfold wr_num. cbn [tls_size i_enum]. apply zlen_be. Qed.
Lemma sized_array n : sized (i_array n) (fun v => length v = n).
Proof. intros a w L E. injection E as <-. cbn. unfold zlen. rewrite L. reflexivity. Qed.
Lemma sized_obscure : sized i_obscure (fun _ => True).
Proof. intros a w _ E. injection E as <-. reflexivity. Qed.
Lemma sized_dummy : sized i_dummy (fun _ => True).
Proof. intros a w _ E. injection E as <-. reflexivity. Qed.
Lemma sized_suite : sized i_cipher_suite (fun _ => True).
Proof. intros [] w _ E; cbn in *; [injection E as <-; reflexivity|discriminate]. Qed.
Ltac trivial_inv := let a := fresh in intros a _; cbv beta; repeat split; try exact I; apply Forall_forall; intros; repeat split; exact I.
Lemma sized_sig_hash : sized i_sig_hash (fun _ => True).
Proof. eapply sized_weaken; [apply sized_map, sized_pair; apply sized_enum|]. trivial_inv. Qed.
Lemma sized_sig_hash_vec : sized i_sig_hash_vec (fun _ => True).
Proof. eapply sized_weaken; [apply sized_vec, sized_sig_hash|]. trivial_inv. Qed.
Lemma sized_opaque mn mx : sized (i_vec i_u8 mn mx) (fun _ => True).
Proof. eapply sized_weaken; [apply sized_vec, sized_u8|]. trivial_inv. Qed.
Lemma sized_enum_vec {A} w (code : A -> Z) all mn mx : sized (i_vec (i_enum w code all) mn mx) (fun _ => True).
Proof. eapply sized_weaken; [apply sized_vec, sized_enum|]. trivial_inv. Qed.
Lemma sized_digitally_signed : sized i_digitally_signed (fun _ => True).
Proof. eapply sized_weaken; [apply sized_map, sized_pair; [apply sized_sig_hash|apply sized_opaque]|]. trivial_inv. Qed.
Lemma sized_alert : sized i_alert (fun _ => True).
Proof. eapply sized_weaken; [apply sized_map, sized_pair; apply sized_enum|]. trivial_inv. Qed.
Lemma Ok_inj {A} (a b : A) : Ok a = Ok b -> a = b.
Proof. intros E; injection E; auto. Qed.
Lemma sized_ext : sized i_extension (fun _ => True).
Proof.
  intros e w _ H. cbn [tls_write i_extension tls_size] in *. unfold ext_size.
  destruct e as [l|l|l|ty d]; cbn [ext_write] in H; unfold ext_write_body, wr_num in H;
    try (apply rbind_ok in H as (body & H & E); apply Ok_inj in E; subst w);
    [| | | apply Ok_inj in H; subst w]; rewrite !zlen_app, !zlen_be.
  - rewrite (sized_enum_vec 2 named_curve_code named_curve_all _ _ l body I H). unfold i_curve_list, i_named_curve. lia.
  - rewrite (sized_enum_vec 1 point_format_code point_format_all _ _ l body I H). unfold i_point_format_list, i_point_format. lia.
  - rewrite (sized_sig_hash_vec l body I H). lia.
  - lia.
Qed.
Lemma sized_exts : sized i_extensions (fun _ => True).
Proof.
  eapply sized_weaken; [apply sized_option, sized_vec, sized_ext|].
  intros [l|] _; [apply Forall_forall; auto|exact I].
Qed.
Lemma sized_version : sized i_version (fun _ => True).
Proof. eapply sized_weaken; [apply sized_map, sized_pair; apply sized_u8|]. trivial_inv. Qed.
Lemma sized_client_hello : sized i_client_hello (fun h => length (ch_random h) = 32%nat).
Proof.
  eapply sized_weaken.
  - apply sized_map, sized_pair; [apply sized_version|]. apply sized_pair; [apply sized_array|].
    apply sized_pair; [apply sized_opaque|]. apply sized_pair; [apply sized_vec, sized_suite|].
    apply sized_pair; [apply sized_enum_vec|apply sized_exts].
  - intros h H. cbn [fst snd]. repeat split; auto. apply Forall_forall; auto.
Qed.
Lemma sized_server_hello : sized i_server_hello (fun h => length (sh_random h) = 32%nat).
Proof.
  eapply sized_weaken.
  - apply sized_map, sized_pair; [apply sized_version|]. apply sized_pair; [apply sized_array|].
    apply sized_pair; [apply sized_opaque|]. apply sized_pair; [apply sized_suite|].
    apply sized_pair; [apply sized_enum|apply sized_exts].
  - intros h H. cbn [fst snd]. repeat split; auto.
Qed.
Lemma sized_cert_list : sized i_certificate_list (fun _ => True).
Proof. eapply sized_weaken; [apply sized_vec, sized_opaque|]. trivial_inv. Qed.
Lemma sized_cert_request : sized i_cert_request (fun _ => True).
Proof.
  eapply sized_weaken.
  - apply sized_map, sized_pair; [apply sized_enum_vec|]. apply sized_pair; [apply sized_sig_hash_vec|].
    apply sized_vec, sized_opaque.
  - trivial_inv.
Qed.
Lemma sized_ske : sized i_ske (fun _ => True).
Proof.
  eapply sized_weaken.
  - apply sized_map, sized_pair; [apply sized_pair; [|apply sized_opaque]|apply sized_digitally_signed].
    instantiate (1 := fun _ => True). intros c w _ E. cbn in E. injection E as <-. reflexivity.
  - intros a _. cbn. auto.
Qed.

(** the invariant of [Random] and the verify data: private field, set only through the checked constructor *)
Definition arrays_ok (h : handshake) : Prop :=
  match h with
  | client_hello_msg b => length (ch_random b) = 32%nat
  | server_hello_msg b => length (sh_random b) = 32%nat
  | finished b => length b = 12%nat
  | _ => True
  end.

Lemma hs_body_sized {A} num (I : item A) inv b w :
  sized I inv -> inv b -> hs_write_body num I b = Ok w ->
  zlen w = 1 + 3 + tls_size I b /\ exists body, w = [z2b num] ++ be 3 (zlen body) ++ body /\ tls_write I b = Ok body.
Proof.
  intros S Ib H. unfold hs_write_body, wr_num in H. apply rbind_ok in H as (body & H & E). apply Ok_inj in E; subst w.
  rewrite !zlen_app, !zlen_be, (S b body Ib H). change (Z.of_nat 1) with 1. change (Z.of_nat 3) with 3.
  split; [lia|]. exists body. rewrite be1, (S b body Ib H). auto.
Qed.

Lemma hs_sized h w : arrays_ok h -> hs_write h = Ok w ->
  zlen w = hs_size h /\ exists body, w = [z2b (hs_type h)] ++ be 3 (zlen body) ++ body.
Proof.
  intros A H. unfold hs_size. destruct h; cbn [hs_write arrays_ok hs_type] in *;
    (eapply hs_body_sized in H; [destruct H as (H1 & body & H2 & _); split; [exact H1|exists body; exact H2]| |];
     [first [apply sized_dummy | apply sized_client_hello | apply sized_server_hello | apply sized_cert_list
            | apply sized_obscure | apply sized_cert_request | apply (sized_array 12)]
     |first [exact I | exact A]]).
Qed.
