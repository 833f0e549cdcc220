(** C109: when construction panics, and where the two builds part. *)
From Verif Require Import Spec_Crash P_Util P_Codec P_CodecProps P_RecordW P_RecordR P_Record P_Record2 P_Aead P_Ecdhe P_Halt P_Client P_Client2 P_App P_App2 P_Panic P_Client3 P_Fault P_Client4 P_Client5 P_Pending P_Open P_Eof P_Accept P_Receive P_Build P_Twice P_Limbs P_P256X P_Scalar P_Decode256 P_Other2 P_Mode P_Mode2.
From Coq Require Import ZifyBool ZifyNat ZifyN.
Local Open Scope list_scope.
Local Open Scope Z_scope.
#[local] Opaque SHA256 HMAC aead_seal aead_decrypt aead_encrypt compute_keys PRF nmul enc from_uncompressed_bytes p256 excess.

(** ** The ServerKeyExchange *)
Lemma read_ske_iff data k rest : tls_read i_ske data = Ok (k, rest) <-> wf_ske k /\ data = e_ske k ++ rest.
Proof.
  split.
  - intros E. pose proof (pa_wf _ _ parser_ske _ _ _ E) as W. split; [exact W|]. destruct (pa_canon _ _ parser_ske _ _ _ E) as (w & -> & _ & H).
    rewrite (H _ (co_write _ _ _ codec_ske k W)). reflexivity.
  - intros [W ->]. exact (co_read _ _ _ codec_ske k rest W).
Qed.
Lemma read_once data k rest k' rest' : tls_read i_ske data = Ok (k, rest) -> tls_read i_ske data = Ok (k', rest') -> k = k'.
Proof. intros A B. rewrite A in B. apply Ok_inj in B. apply pair_equal_spec in B as [-> _]. reflexivity. Qed.
Lemma decode_once m x y r : 0 <= x < 2 ^ 256 -> 0 <= y < 2 ^ 256 -> from_uncompressed_bytes m (enc x y) = r ->
  (m = Debug /\ overstepping x /\ r = Panic) \/ ((m = Debug -> ~ overstepping x) /\ decided x y r).
Proof.
  intros Hx Hy <-. destruct m; [destruct (exact_debug x y Hx Hy) as [[O E]|[O D]]; [left|right]; auto|]. right. split; [discriminate|]. exact (exact_release x y Hx Hy).
Qed.
Lemma decode_kinds m data : match from_uncompressed_bytes m data with Err _ | Diverge => True | _ => False end -> False.
Proof.
  destruct (decode_cases m data) as [X|(x & y & Ox & Oy & X)]; rewrite X; [exact (fun A => A)|].
  destruct m; [destruct (decode_debug x y Ox Oy) as [Y|[Y|[Y _]]]|destruct (decode_release x y Ox Oy) as [Y|Y]]; rewrite Y; exact (fun A => A).
Qed.
(** key computation panics for want of randomness, or in a debug build on the point *)
Lemma keys_panic m data g : (exists g', compute_keys m data g = (Panic, g')) <->
  exists k rest x y, tls_read i_ske data = Ok (k, rest) /\ ske_public k = enc x y /\ 0 <= x < 2 ^ 256 /\ 0 <= y < 2 ^ 256 /\
    ((m = Debug /\ overstepping x) \/ ((m = Debug -> ~ overstepping x) /\ welcome x y /\ ~ enough_randomness g)).
Proof.
  split.
  - intros (g' & K). destruct (tls_read i_ske data) as [[k rest]|e| |] eqn:E.
    + destruct (from_uncompressed_bytes m (ske_public k)) as [[N|]|e| |] eqn:F.
      * pose proof F as F'. apply exact_all in F' as (Ox & Oy & D & A & O). exists k, rest, (limbs_val (nx N)), (limbs_val (ny N)).
        split; [reflexivity|]. split; [exact D|]. split; [exact (limbs_val_range _ Ox)|]. split; [exact (limbs_val_range _ Oy)|]. right.
        split; [exact O|]. split; [exact A|]. intros (j & J). destruct (exchange_secret m data g k rest N j E F J) as (pub & g'' & K'). rewrite K in K'. apply pair_equal_spec in K' as [X _]. discriminate X.
      * exfalso. pose proof (compute_keys_early m data g) as C. rewrite E, F in C. rewrite C in K; [apply pair_equal_spec in K as [X _]; discriminate X|].
        intros k' rest' N X. apply Ok_inj in X. apply pair_equal_spec in X as [<- _]. rewrite F. discriminate.
      * destruct (decode_kinds m (ske_public k) ltac:(rewrite F; exact I)).
      * apply exact_panic in F as (-> & x & y & Hx & Hy & O & D). exists k, rest, x, y. auto 10.
      * destruct (decode_kinds m (ske_public k) ltac:(rewrite F; exact I)).
    + exfalso. rewrite compute_keys_early in K by (intros k' rest' N X; rewrite E in X; discriminate X). rewrite E in K. apply pair_equal_spec in K as [X _]. discriminate X.
    + exfalso. pose proof (pa_total _ _ parser_ske data) as V. rewrite E in V. exact V.
    + exfalso. pose proof (pa_total _ _ parser_ske data) as V. rewrite E in V. exact V.
  - intros (k & rest & x & y & E & D & Hx & Hy & C). destruct C as [[-> O]|(O & A & NE)].
    + assert (F : from_uncompressed_bytes Debug (ske_public k) = Panic) by (apply exact_panic; rewrite D; split; [reflexivity|]; exists x, y; auto).
      exists g. rewrite compute_keys_early by (intros k' rest' N X; rewrite (read_once _ _ _ _ _ X E), F; discriminate). rewrite E, F. reflexivity.
    + destruct (decode_once m x y _ Hx Hy eq_refl) as [(Em & O' & _)|[_ Q]]; [destruct (O Em O')|]. destruct Q as [[_ (N & F & _)]|[B _]]; [|contradiction].
      rewrite <- D in F. rewrite (compute_keys_run m data g k rest N E F). destruct (random_none m g NE) as (g' & ->). exists g'. reflexivity.
Qed.
(** the builds agree on everything else *)
Lemma keys_builds data g : (exists k rest x y, tls_read i_ske data = Ok (k, rest) /\ ske_public k = enc x y /\ 0 <= x < 2 ^ 256 /\ 0 <= y < 2 ^ 256 /\ overstepping x) \/
  fst (compute_keys Debug data g) = fst (compute_keys Release data g).
Proof.
  destruct (sim_keys data g g eq_refl) as [[P _]|[Q _]]; [|right; exact Q]. destruct (compute_keys Debug data g) as [z g'] eqn:K. cbn [fst] in P. subst z.
  destruct (proj1 (keys_panic Debug data g) (ex_intro _ g' K)) as (k & rest & x & y & E & D & Hx & Hy & [[_ O]|(O & A & NE)]); [left; exists k, rest, x, y; auto|].
  right. destruct (proj2 (keys_panic Release data g)) as (g'' & K'); [|rewrite K'; reflexivity].
  exists k, rest, x, y. split; [exact E|]. split; [exact D|]. split; [exact Hx|]. split; [exact Hy|]. right. split; [discriminate|]. split; assumption.
Qed.
