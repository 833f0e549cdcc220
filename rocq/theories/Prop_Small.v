(** C94: the small public functions. *)
From Verif Require Import Spec_Small P_Util P_Codec P_Small.
Import String.StringSyntax.
Local Open Scope string_scope.
Local Open Scope list_scope.
Local Open Scope Z_scope.

(** conversions between word types keep the low bits, and all of them if there is room *)
Theorem C94_wrapping : forall src dst v, in_width src v ->
  in_width dst (to_wrapping dst v) /\ to_wrapping dst v = v mod 2 ^ bits dst /\ (in_width dst v -> to_wrapping dst v = v).
Proof. exact wrap_spec. Qed.
Print Assumptions C94_wrapping.
Theorem C94_wrapping_twice : forall a b v, 0 <= v < 2 ^ 64 -> bits b <= bits a -> to_wrapping b (to_wrapping a v) = to_wrapping b v.
Proof. exact wrap_wrap. Qed.
Print Assumptions C94_wrapping_twice.
(** the two that the curve code uses are those of its model *)
Theorem C94_wrapping_used : forall v, 0 <= v < 2 ^ 64 -> to_wrapping W32 v = to_w32 v /\ z2b (to_wrapping W8 v) = to_w8 v.
Proof. exact wrap_model. Qed.
Print Assumptions C94_wrapping_used.
(** the crate's own test *)
Example ex_wrapping : let v := 0x1234567887654321 in to_wrapping W32 v = 0x87654321 /\ to_wrapping W16 v = 0x4321 /\ to_wrapping W8 v = 0x21 /\ in_width W64 v.
Proof. repeat split; discriminate. Qed.

(** the texts tell the kinds of error apart *)
Theorem C94_descriptions : forall a b, description a = description b -> a = b.
Proof. exact description_injective. Qed.
Print Assumptions C94_descriptions.
Theorem C94_texts : forall k t, description k = t <-> In (k, t) texts.
Proof. exact texts_iff. Qed.
Print Assumptions C94_texts.
(** also where the alerts do not *)
Example ex_same_alert : alert_from_err InternalError = alert_from_err IoFailure /\ description InternalError <> description IoFailure.
Proof. split; [reflexivity|discriminate]. Qed.
(** an error of the transport has its own kind, whatever it is, and keeps its text *)
Theorem C94_io : forall shown, te_kind (tls_error_from shown) = IoFailure /\ te_desc (tls_error_from shown) = String.append "io error: " shown.
Proof. exact (fun shown => conj eq_refl eq_refl). Qed.
Print Assumptions C94_io.
Theorem C94_errors : forall (A : Type) k desc, @tls_error_new A k desc = inr (TlsError k desc).
Proof. exact (fun A k desc => eq_refl). Qed.
Print Assumptions C94_errors.
Example ex_io : te_desc (tls_error_from "connection reset") = "io error: connection reset". Proof. reflexivity. Qed.

(** an alert made from an error is one the RFC allows *)
Theorem C94_own_alerts : forall e, rfc_allows (al_level (alert_from_tls_err e)) (al_desc (alert_from_tls_err e)).
Proof. exact own_alerts_allowed. Qed.
Print Assumptions C94_own_alerts.
(** [Alert::new] makes others too *)
Theorem C94_alert_filter_refuted : exists lv d, ~ rfc_allows lv d /\ alert_new lv d = Ok (Alert lv d).
Proof. exact alert_unfiltered. Qed.
Print Assumptions C94_alert_filter_refuted.
(** any, and they can be sent and are read back *)
Theorem C94_alert_any : forall lv d, alert_new lv d = Ok (Alert lv d) /\ exists b, tls_write i_alert (Alert lv d) = Ok b /\ tls_read i_alert b = Ok (Alert lv d, []).
Proof. exact alert_any. Qed.
Print Assumptions C94_alert_any.
Example ex_allowed : rfc_allows AL_warning AD_close_notify /\ rfc_allows AL_fatal AD_close_notify /\ ~ rfc_allows AL_fatal AD_no_renegotiation /\ ~ rfc_allows AL_fatal AD_no_certificate_RESERVED.
Proof. repeat split; try discriminate. intros []. Qed.

(** opaque bodies are kept as they are *)
Theorem C94_obscure : forall d, obscure_unwrap (obscure_new d) = d /\ obscure_deref (obscure_new d) = d /\ tls_write i_obscure_data (obscure_new d) = Ok d /\
  tls_read i_obscure_data d = Ok (obscure_new d, []) /\ tls_size i_obscure_data (obscure_new d) = zlen d.
Proof. exact obscure_whole. Qed.
Print Assumptions C94_obscure.
Theorem C94_obscure_only : forall o, obscure_new (obscure_unwrap o) = o.
Proof. exact obscure_only. Qed.
Print Assumptions C94_obscure_only.
Example ex_obscure : tls_write i_obscure_data (obscure_new [x61; x62]) = Ok [x61; x62]. Proof. reflexivity. Qed.
