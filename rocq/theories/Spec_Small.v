(** Specification vocabulary for C94. *)
From Verif Require Export M_Small.
Import String.StringSyntax.
Local Open Scope string_scope.
Local Open Scope list_scope.
Local Open Scope Z_scope.

(** alerts RFC 5246 allows, 7.2.2: some are always fatal, one is always a warning, the reserved ones must not be sent by a
    compliant implementation; RFC 6066 section 9: [certificate_unobtainable] and [unrecognized_name] may be either, the other two are fatal *)
Inductive rfc_level := Either | Only (l : alert_level) | Never.
Definition rfc_alert (d : alert_desc) : rfc_level :=
  match d with
  | AD_unexpected_message | AD_bad_record_mac | AD_record_overflow | AD_decompression_failure | AD_handshake_failure | AD_illegal_parameter
  | AD_unknown_ca | AD_access_denied | AD_decode_error | AD_decrypt_error | AD_protocol_version | AD_insufficient_security | AD_internal_error
  | AD_unsupported_extension | AD_bad_certificate_status_response | AD_bad_certificate_hash_value => Only AL_fatal
  | AD_no_renegotiation => Only AL_warning
  | AD_decryption_failed_RESERVED | AD_no_certificate_RESERVED | AD_export_restriction_RESERVED => Never
  | _ => Either
  end.
Definition rfc_allows (l : alert_level) (d : alert_desc) : Prop :=
  match rfc_alert d with Either => True | Only l' => l = l' | Never => False end.
(** words *)
Definition in_width (w : width) (v : Z) : Prop := 0 <= v < 2 ^ bits w.
(** the texts of the errors *)
Definition texts : list (errkind * String.string) :=
  [(AlertReceived, "received an alert"); (BadRecordMac, "record has bad mac and/or encryption"); (DecodeError, "cannot decode message");
   (DecryptError, "failed to verify signature/message"); (IllegalParameter, "illegal parameter during handshake"); (InternalError, "internal error");
   (IoFailure, "i/o error"); (RecordOverflow, "record too long"); (UnexpectedMessage, "unexpected message")].
