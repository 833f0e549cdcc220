(** The secret of every handshake that goes through, and a handshake for every point that is accepted. *)
From Verif Require Import Spec_Client Spec_Client2 P_RecordW P_Client P_Client2 P_Client3 P_Client4 P_Panic P_Ecdhe P_Client5 Spec_Other P_Limbs P_Fp P_Points P_Scalar P_P256X P_Decode256 P_Other.
From Coq Require Import ZifyBool ZifyNat ZifyN.
Import String.StringSyntax.
Local Open Scope string_scope.
Local Open Scope list_scope.
Local Open Scope Z_scope.
#[local] Opaque from_uncompressed_bytes enc welcome overstepping p256 excess on_curve_of compute_keys nmul toF SHA256 HMAC aead_seal aead_decrypt aead_encrypt PRF.

Lemma on_c_int c x y : on_c (toF c) (Aff (toF x) (toF y)) <-> on_curve_of c x y.
Proof.
  unfold on_c, Aff, cA. rewrite <- !toF_mul, <- !toF_add, <- toF_eq. change (on_curve_of c x y) with ((y * y) mod p256 = (x * x * x - 3 * x + c) mod p256).
  replace (x * x * x + -3 * x + c) with (x * x * x - 3 * x + c) by lia. reflexivity.
Qed.
Lemma feqb_false a b : (fval a =? fval b) = false -> a <> b.
Proof. intros H E. subst. rewrite Z.eqb_refl in H. discriminate H. Qed.
Lemma c_of_smooth x : x < 2 ^ 256 -> smooth (c_of x).
Proof.
  intros H. pose proof (oversteps_range x H) as R. unfold c_of. assert (C : oversteps x = 0 \/ oversteps x = 1 \/ oversteps x = 2) by lia.
  destruct C as [-> |[-> | ->]]; split; apply feqb_false; vm_compute; reflexivity.
Qed.
Lemma accepted_on m data N : from_uncompressed_bytes m data = Ok (Some N) ->
  int256_ok (nx N) /\ int256_ok (ny N) /\ smooth (c_of (limbs_val (nx N))) /\ on_c (c_of (limbs_val (nx N))) (Aff (fv (nx N)) (fv (ny N))).
Proof.
  intros H. apply exact_all in H as (Ox & Oy & _ & A & _). split; [exact Ox|]. split; [exact Oy|]. pose proof (limbs_val_range _ Ox) as R.
  split; [apply c_of_smooth; apply R|]. unfold c_of, fv. apply on_c_int. exact (welcome_curve _ _ A).
Qed.
Lemma every_curve x y : exists c, on_c c (Aff x y) /\ forall c', on_c c' (Aff x y) -> c' = c.
Proof.
  exists (fsub (fmul y y) (fadd (fmul (fmul x x) x) (fmul cA x))). unfold on_c, Aff.
  rewrite <- (toF_fval x), <- (toF_fval y). generalize (fval x) (fval y). intros a b. unfold cA. rewrite <- ?toF_mul, <- ?toF_add, <- ?toF_sub, <- ?toF_add. split.
  - f_equal. lia.
  - intros c'. rewrite <- (toF_fval c'). generalize (fval c'). intros z. rewrite <- ?toF_add. intros H. apply toF_eq in H. apply toF_eq.
    apply eqm_elim in H as [k H]. apply eqm_intro with (- k). lia.
Qed.
Lemma exchange_secret m data g k rest N j : tls_read i_ske data = Ok (k, rest) -> from_uncompressed_bytes m (ske_public k) = Ok (Some N) -> first_accepted g j ->
  exists pub g', compute_keys m data g = (Ok (pub, secret_of (nmul (Z.to_nat (used_scalar (draw g j))) (Aff (fv (nx N)) (fv (ny N))))), g').
Proof.
  intros E D F. destruct (compute_keys_accept m data g k rest N j E D F) as (x & A & B & Hx & V & _ & EB & K).
  destruct (accepted_on m _ _ D) as (Ox & Oy & Sm & On). destruct (shared_c _ Sm m N x Ox Oy On Hx) as (S0 & ES & _ & Sec).
  rewrite EB in ES. apply Ok_inj in ES. subst S0. rewrite K, Sec, (limbs_words x Hx), V. eauto.
Qed.
Lemma handshake_secret m s p g c : client_new m s p g = (Ok tt, c) -> exists ss k rest x y j,
  reached m s g (Complete ss) /\ tls_read i_ske (s_ske ss) = Ok (k, rest) /\ ske_public k = enc x y /\ 0 <= x < 2 ^ 256 /\ 0 <= y < 2 ^ 256 /\
  welcome x y /\ first_accepted (skipn 32 g) j /\ on_c (c_of x) (Aff (toF x) (toF y)) /\
  s_pms ss = secret_of (nmul (Z.to_nat (used_scalar (draw (skipn 32 g) j))) (Aff (toF x) (toF y))).
Proof.
  intros H. apply connected in H as (ss & R & _). exists ss. destruct R as (L & Cr & Fl & V & S0 & C & g' & K).
  pose proof (compute_keys_cases m (s_ske ss) (skipn 32 g)) as CK. rewrite K in CK. destruct CK as (_ & (j & J) & k & rest & N & K1 & K2).
  pose proof (accepted_on m _ _ K2) as (_ & _ & _ & On). destruct (exchange_secret m _ _ k rest N j K1 K2 J) as (pub & g'' & K').
  apply exact_all in K2 as (Ox & Oy & D & A & _). pose proof (limbs_val_range _ Ox) as Rx. pose proof (limbs_val_range _ Oy) as Ry.
  exists k, rest, (limbs_val (nx N)), (limbs_val (ny N)), j.
  split; [exact (conj L (conj Cr (conj Fl (conj V (conj S0 (conj C (ex_intro _ g' K)))))))|]. split; [exact K1|]. split; [exact D|].
  split; [exact Rx|]. split; [exact Ry|]. split; [exact A|]. split; [exact J|]. split; [exact On|].
  rewrite K in K'. apply (f_equal fst) in K'. cbn [fst] in K'. apply Ok_inj in K'. apply (f_equal snd) in K'. exact K'.
Qed.
#[local] Transparent enc.
Lemma point_good sv cr cke pms x y : wf_server sv -> length cr = 32%nat -> length cke = 66%nat -> length pms = 32%nat ->
  good_session (Session cr (sv_hello sv) (sv_certs sv) (e_ske (Ske (sv_curve sv) (enc x y) (sv_sig sv))) cke pms).
Proof.
  intros W L Lk Lp. destruct (sv_good sv cr cke pms f0 f0 W L Lk Lp) as (G1 & G2 & G3 & G4 & G5).
  do 4 (split; [assumption|]). revert G5. unfold s_msgs. cbn [s_cr s_sh s_certs s_ske s_cke]. intros G.
  inversion G as [|? ? A1 T1]; subst. inversion T1 as [|? ? A2 T2]; subst. inversion T2 as [|? ? A3 T3]; subst. inversion T3 as [|? ? A4 T4]; subst.
  constructor; [exact A1|]. constructor; [exact A2|]. constructor; [exact A3|]. constructor; [|exact T4].
  destruct A4 as [_ A4]. split; [exact I|]. revert A4. cbn [e_hs_body]. unfold e_ske. cbn [ske_curve ske_public ske_signed]. rewrite !zlen_app, !sp_vec_len.
  rewrite sec1_enc. unfold zlen. rewrite !enc_length. auto.
Qed.
#[local] Opaque enc.
Lemma point_connects m sv x y g j p : wf_server sv -> 0 <= x < 2 ^ 256 -> 0 <= y < 2 ^ 256 -> welcome x y -> (m = Debug -> ~ overstepping x) ->
  (32 <= length g)%nat -> first_accepted (skipn 32 g) j -> healthy (writer_new p) ->
  exists s ss c, clean s /\ client_new m s p g = (Ok tt, c) /\ reached m s g (Complete ss) /\
    s_ske ss = e_ske (Ske (sv_curve sv) (enc x y) (sv_sig sv)) /\
    s_pms ss = secret_of (nmul (Z.to_nat (used_scalar (draw (skipn 32 g) j))) (Aff (toF x) (toF y))).
Proof.
  intros W Hx Hy A O Lg F H.
  assert (D : exists N, from_uncompressed_bytes m (enc x y) = Ok (Some N) /\ limbs_val (nx N) = x /\ limbs_val (ny N) = y).
  { assert (Q : decided x y (from_uncompressed_bytes m (enc x y))).
    { destruct m; [|exact (exact_release x y Hx Hy)]. destruct (exact_debug x y Hx Hy) as [[B0 _]|[_ Q]]; [destruct (O eq_refl B0)|exact Q]. }
    destruct Q as [[_ (N & E & _ & _ & Vx & Vy)]|[B0 _]]; [exists N; auto|contradiction]. }
  destruct D as (N & D & Vx & Vy). set (k := Ske (sv_curve sv) (enc x y) (sv_sig sv)).
  assert (Wk : wf_ske k). { split; [|apply W]. cbn [ske_public k]. unfold in_range, zlen. rewrite enc_length. lia. }
  pose proof (read_ske_enc k Wk) as Rk. destruct (exchange_secret m (e_ske k) _ k [] N j Rk D F) as (pub & g' & K).
  unfold fv in K. rewrite Vx, Vy in K. set (pms := secret_of _) in K.
  assert (Lc : length (firstn 32 g) = 32%nat) by (rewrite firstn_length; lia).
  pose proof (keys_lengths _ _ _ _ _ _ K) as (Lp & Lk & _).
  set (ss := Session (firstn 32 g) (sv_hello sv) (sv_certs sv) (e_ske k) pub pms).
  pose proof (point_good sv _ _ _ x y W Lc Lk Lp) as G. fold k in G. fold ss in G.
  set (bs := concat (map e_handshake [server_hello_msg (s_sh ss); certificate (s_certs ss); server_key_exchange (s_ske ss); server_hello_done])).
  destruct (fragments_legal bs) as (E1 & L1 & _). set (fs1 := chunks (Z.to_nat RECORD_MAX_LEN) bs) in *.
  destruct (fin_wf (s_master ss) "server finished" (s_msgs ss ++ [s_client_fin ss])) as (_ & _ & L2). change (finished _) with (s_server_fin ss) in L2.
  set (fs2 := [e_handshake (s_server_fin ss)]).
  assert (F2 : second_flight ss fs2) by (split; [constructor; [exact L2|constructor]|cbn [concat fs2]; apply app_nil_r]).
  destruct (session_connects m g ss (source (served ss fs1 fs2 ++ [])) p fs1 fs2 [] G Lg eq_refl eq_refl (ex_intro _ g' K) (conj L1 E1) F2 (source_stream _) H)
    as (c & Ec & Rc & _).
  exists (source (served ss fs1 fs2 ++ [])), ss, c. split; [apply source_clean|]. split; [exact Ec|]. split; [exact Rc|]. split; reflexivity.
Qed.
Lemma off_connects : exists s g c ss x y, client_new Release s [] g = (Ok tt, c) /\ reached Release s g (Complete ss) /\
  s_ske ss = e_ske (Ske secp256r1 (enc x y) (sv_sig plain_server)) /\ 0 <= x < 2 ^ 256 /\ 0 <= y < 2 ^ 256 /\ ~ oncurve (Aff (toF x) (toF y)).
Proof.
  destruct (three_curves 2 ltac:(auto)) as (x & y & Hx & Hy & A & V). assert (Hx' : 0 <= x < 2 ^ 256) by (pose proof p256_bounds; lia).
  destruct (point_connects Release plain_server x y one_tape 0 [] plain_wf Hx' Hy A ltac:(discriminate) ltac:(cbn; lia) one_accepted ltac:(constructor)) as (s & ss & c & _ & E & R & K & _).
  exists s, one_tape, c, ss, x, y. split; [exact E|]. split; [exact R|]. split; [exact K|]. split; [exact Hx'|]. split; [exact Hy|].
  intros On. apply (welcome_oncurve x y (proj2 Hx') A) in On. apply (overstepping_0 x (proj2 Hx')) in On. rewrite V in On. discriminate On.
Qed.
