(** The crate's own constructors of messages and extensions, and the two wire types of the key exchange that are
    never read on their own. *)
From Coq Require Import ZifyBool ZifyNat ZifyN.
From Verif Require Import Spec_Wire Spec_Codec2 P_Codec P_CodecProps P_Extra.


Lemma accepts_vec {A B} (I : item A) mn mx sz l (f : list A -> B) : bounded I mn mx sz ->
  accepts (let* l := vec_new I mn mx l in Ok (f l)) (in_range mn (total sz l) mx) (f l).
Proof. intros (H1 & H2 & _). split; intros H; [rewrite (H1 l H) | rewrite (H2 l H)]; reflexivity. Qed.

Lemma new_extensions :
  (forall l, accepts (new_elliptic_curve_list l) (in_range 1 (total (fun _ => 2) l) 65535) (elliptic_curves l)) /\
  (forall l, accepts (new_ec_point_formats l) (in_range 1 (total (fun _ => 1) l) 255) (ec_point_formats l)) /\
  (forall l, accepts (new_signature_algorithm_list l) (in_range 2 (total (fun _ => 2) l) 65534)
                     (signature_algorithms l)).
Proof.
  destruct vectors_bounded as (_ & _ & _ & _ & C & F & S & _).
  split; [|split]; intros l; [apply (accepts_vec _ _ _ _ _ _ C) | apply (accepts_vec _ _ _ _ _ _ F)
                              | apply (accepts_vec _ _ _ _ _ _ S)].
Qed.

Lemma new_hello random cs exts :
  accepts (new_client_hello random cs exts) (total (fun e => zlen (e_ext e)) exts <= 65535)
    (client_hello_msg (ClientHello (Version x03 x03) random [] [cs] [CM_null]
                         match exts with [] => None | _ => Some exts end)).
Proof.
  destruct vectors_bounded as (_ & C & M & _ & _ & _ & _ & _ & E & _).
  assert (P : 0 <= total (fun e => zlen (e_ext e)) exts).
  { unfold total. induction exts as [|e t IH]; cbn [map fold_right]; [lia|]. unfold zlen in *. lia. }
  unfold new_client_hello.
  rewrite (proj1 (vec_new_iff i_u8 0 32 [])) by (split; vm_compute; discriminate). cbn [rbind].
  destruct C as [C _]. rewrite C by (split; vm_compute; discriminate). cbn [rbind].
  destruct M as [M _]. rewrite M by (split; vm_compute; discriminate). cbn [rbind].
  destruct exts as [|e t]; [split; intros H; [reflexivity|]; exfalso; apply H; vm_compute; discriminate|].
  destruct E as (E1 & E2 & _). split; intros H.
  - rewrite E1 by (split; [exact P|exact H]). reflexivity.
  - rewrite E2 by (intros [_ Q]; exact (H Q)). reflexivity.
Qed.

Lemma new_fin d : (length d = 12%nat -> new_finished d = Ok (finished d)) /\
                  (length d <> 12%nat -> new_finished d = Err InternalError).
Proof.
  unfold new_finished. split; intros H; [rewrite (proj1 (array_new_spec 12 d) H)
                                        | rewrite (proj2 (array_new_spec 12 d) H)]; reflexivity.
Qed.

(** ** [EcCurve] and [EcParameters] (src/cipher/ecdhe.rs:18-23, 95-102) *)
Lemma codec_ec_curve : codec i_ec_curve wf_ec_curve e_ec_curve.
Proof.
  eapply codec_weaken.
  - eapply codec_map; [eapply codec_pair; exact codec_ec_data | intros []; reflexivity].
  - cbv beta. cbn [fst snd]. intros a H. exact H.
  - intros; reflexivity.
Qed.
Lemma ec_types :
  (roundtrips i_ec_curve wf_ec_curve /\ written_as i_ec_curve wf_ec_curve e_ec_curve) /\
  (roundtrips i_ec_parameters anything /\ written_as i_ec_parameters anything (fun c => x03 :: e_curve c)).
Proof.
  split; split; intros v; intros.
  - eexists. split; [apply (co_write _ _ _ codec_ec_curve); assumption|].
    apply (co_read _ _ _ codec_ec_curve); assumption.
  - apply (co_write _ _ _ codec_ec_curve); assumption.
  - eexists. split; [apply (co_write _ _ _ codec_ec_parameters); exact I|].
    apply (co_read _ _ _ codec_ec_parameters); exact I.
  - etransitivity; [apply (co_write _ _ _ codec_ec_parameters); exact I|]. reflexivity.
Qed.
Lemma parser_ec_curve : parser i_ec_curve wf_ec_curve.
Proof.
  eapply parser_weaken.
  - eapply parser_map; [eapply parser_pair; apply (parser_opaque 1 (2 ^ 8 - 1)) | intros []; reflexivity].
  - cbv beta. cbn [fst snd]. intros a H. exact H.
Qed.
Lemma ec_read {A} (I : item A) wf enc bs : codec I wf enc -> parser I wf ->
  match tls_read I bs with Ok (c, rest) => wf c /\ bs = enc c ++ rest | Err _ => True | Panic | Diverge => False end.
Proof.
  intros C P. pose proof (pa_total _ _ P bs) as T. destruct (tls_read I bs) as [[c rest]| | |] eqn:E; try exact T.
  pose proof (pa_wf _ _ P _ _ _ E) as W. split; [exact W|].
  destruct (pa_canon _ _ P _ _ _ E) as (w & -> & _ & U). f_equal. symmetry. apply U. apply (co_write _ _ _ C c W).
Qed.
Lemma ec_total bs :
  match tls_read i_ec_curve bs with
  | Ok (c, rest) => wf_ec_curve c /\ bs = e_ec_curve c ++ rest | Err _ => True | Panic | Diverge => False end /\
  match tls_read i_ec_parameters bs with
  | Ok (c, rest) => anything c /\ bs = (x03 :: e_curve c) ++ rest | Err _ => True | Panic | Diverge => False end.
Proof.
  split; [apply (ec_read _ _ _ bs codec_ec_curve parser_ec_curve)|].
  exact (ec_read _ _ _ bs codec_ec_parameters parser_ec_parameters).
Qed.
(** ** Integers, and curve types this crate does not know *)
Lemma num_exact w : (0 < w)%nat -> num_type (i_num w) w.
Proof.
  intros Hw z rest. split; [|split; [|split]].
  - intros _. reflexivity.
  - intros Hz. apply rd_num_app. exact Hz.
  - intros short Hs. cbn. unfold rd_num, read_n. replace (w <=? length short)%nat with false by (symmetry; apply Nat.leb_gt; exact Hs). reflexivity.
  - reflexivity.
Qed.
Lemma numbers_exact : num_type i_u16 2 /\ num_type i_u32 4 /\ num_type i_u64 8.
Proof. repeat split; intros; apply num_exact; auto; lia. Qed.
Lemma other_curve_type b rest : b <> x03 -> tls_read i_ec_parameters (b :: rest) = Err DecodeError.
Proof.
  intros H. cbn [tls_read i_ec_parameters]. rewrite rd_num_1_cons. cbn [rbind]. replace (b2z b =? 3) with false; [reflexivity|].
  symmetry. apply Z.eqb_neq. intros X. apply H. rewrite <- (z2b_b2z b), X. reflexivity.
Qed.
