(** Proofs for C94. *)
From Verif Require Import Spec_Small P_Util P_Codec.
From Coq Require Import ZifyBool ZifyNat ZifyN.
Local Open Scope list_scope.
Local Open Scope Z_scope.

Lemma wrap_mod w v : 0 <= v < 2 ^ 64 -> to_wrapping w v = v mod 2 ^ bits w.
Proof.
  intros V. destruct w; cbn [to_wrapping bits]; [| | |reflexivity]; rewrite (Z.mod_small v) by exact V;
    match goal with |- context [Z.shiftl 1 ?n - 1] => change (Z.shiftl 1 n - 1) with (Z.ones n) end;
    rewrite Z.land_ones by lia; apply Z.mod_mod; lia.
Qed.
Theorem wrap_spec src dst v : in_width src v -> in_width dst (to_wrapping dst v) /\ to_wrapping dst v = v mod 2 ^ bits dst /\ (in_width dst v -> to_wrapping dst v = v).
Proof.
  intros V. assert (V' : 0 <= v < 2 ^ 64) by (unfold in_width in V; destruct src; cbn [bits] in V; lia).
  rewrite (wrap_mod dst v V'). split; [|split; [reflexivity|]].
  - apply Z.mod_pos_bound. destruct dst; reflexivity.
  - intros I. apply Z.mod_small. exact I.
Qed.
Lemma wrap_model v : 0 <= v < 2 ^ 64 -> to_wrapping W32 v = to_w32 v /\ z2b (to_wrapping W8 v) = to_w8 v.
Proof.
  intros V. unfold to_w32, to_w8. cbn [to_wrapping bits]. rewrite (Z.mod_small v) by exact V. change (Z.shiftl 1 32 - 1) with (Z.ones 32). change (Z.shiftl 1 8 - 1) with (Z.ones 8).
  change (2 ^ 32 - 1) with (Z.ones 32). change (2 ^ 8 - 1) with (Z.ones 8). rewrite !Z.land_ones by lia. rewrite !Z.mod_mod by lia. auto.
Qed.
(** one after another is as good as at once *)
Theorem wrap_wrap a b v : 0 <= v < 2 ^ 64 -> bits b <= bits a -> to_wrapping b (to_wrapping a v) = to_wrapping b v.
Proof.
  intros V L. rewrite (wrap_mod a v V). assert (B : 0 <= v mod 2 ^ bits a < 2 ^ 64).
  { assert (0 < 2 ^ bits a) by (destruct a; reflexivity). pose proof (Z.mod_pos_bound v (2 ^ bits a)). pose proof (Z.mod_le v (2 ^ bits a)). lia. }
  rewrite (wrap_mod b _ B), (wrap_mod b v V). destruct a, b; cbn [bits] in *; try lia; rewrite <- Znumtheory.Zmod_div_mod; try reflexivity; try lia.
  all: match goal with |- (2 ^ ?x | 2 ^ ?y) => exists (2 ^ (y - x)); reflexivity end.
Qed.
Theorem description_injective a b : description a = description b -> a = b.
Proof. destruct a, b; intros E; try reflexivity; discriminate E. Qed.
Theorem own_alerts_allowed e : rfc_allows (al_level (alert_from_tls_err e)) (al_desc (alert_from_tls_err e)).
Proof. destruct e as [[] d]; cbn; reflexivity || exact I. Qed.
Theorem alert_unfiltered : exists lv d, ~ rfc_allows lv d /\ alert_new lv d = Ok (Alert lv d).
Proof. exists AL_warning, AD_bad_record_mac. split; [discriminate|reflexivity]. Qed.
Theorem alert_any lv d : alert_new lv d = Ok (Alert lv d) /\ exists b, tls_write i_alert (Alert lv d) = Ok b /\ tls_read i_alert b = Ok (Alert lv d, []).
Proof. split; [reflexivity|]. eexists. split; [destruct lv, d; reflexivity|destruct lv, d; vm_compute; reflexivity]. Qed.
Theorem obscure_whole d : obscure_unwrap (obscure_new d) = d /\ obscure_deref (obscure_new d) = d /\ tls_write i_obscure_data (obscure_new d) = Ok d /\
  tls_read i_obscure_data d = Ok (obscure_new d, []) /\ tls_size i_obscure_data (obscure_new d) = zlen d.
Proof. repeat split. Qed.
Theorem obscure_only o : obscure_new (obscure_unwrap o) = o.
Proof. destruct o. reflexivity. Qed.
Theorem texts_iff k t : description k = t <-> In (k, t) texts.
Proof.
  split.
  - intros <-. destruct k; cbn; tauto.
  - unfold texts. cbn [In]. intros H. repeat (destruct H as [H|H]; [apply pair_equal_spec in H as [<- <-]; reflexivity|]). destruct H.
Qed.
