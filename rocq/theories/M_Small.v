(** Model of the small public functions no other part of the model needs: conversions of src/crypto/wrapping.rs, the error
    texts of src/tls_result.rs and src/util.rs, [Alert::new], [ObscureData]. *)
From Verif Require Export M_P256 M_Codec.
Import String.StringSyntax.
Local Open Scope string_scope.
Local Open Scope list_scope.
Local Open Scope Z_scope.

(** src/crypto/wrapping.rs:47-50: the four word types *)
Inductive width := W8 | W16 | W32 | W64.
(** src/crypto/wrapping.rs:47-50 *)
Definition bits (w : width) : Z := match w with W8 => 8 | W16 => 16 | W32 => 32 | W64 => 64 end.
(** src/crypto/wrapping.rs:15-26, 37-45 [to_w8], [to_w16], [to_w32], [to_w64] of a word of any of the types: widened to 64 bits,
    masked (not for [to_w64]), and cast.  [(1 << $size) - 1] is computed in [u64] and does not overflow, as [$size <= 32] *)
Definition to_wrapping (w : width) (v : Z) : Z :=
  match w with
  | W64 => v mod 2 ^ 64
  | _ => (Z.land (v mod 2 ^ 64) (Z.shiftl 1 (bits w) - 1)) mod 2 ^ bits w
  end.

(** src/tls_result.rs:36-54 [description] *)
Definition description (k : errkind) : String.string :=
  match k with
  | UnexpectedMessage => "unexpected message"
  | BadRecordMac => "record has bad mac and/or encryption"
  | RecordOverflow => "record too long"
  | IllegalParameter => "illegal parameter during handshake"
  | DecodeError => "cannot decode message"
  | DecryptError => "failed to verify signature/message"
  | InternalError => "internal error"
  | IoFailure => "i/o error"
  | AlertReceived => "received an alert"
  end.
(** src/tls_result.rs:21-25 [TlsError] *)
Record tls_error := TlsError { te_kind : errkind; te_desc : String.string }.
(** src/tls_result.rs:27-34 [TlsError::new] *)
Definition tls_error_new {A} (k : errkind) (desc : String.string) : A + tls_error := inr (TlsError k desc).
(** src/tls_result.rs:56-63 [From<io::Error>]; [shown] is what [Display] makes of the error *)
Definition tls_error_from (shown : String.string) : tls_error := TlsError IoFailure (String.append "io error: " shown).

(** src/alert.rs:73-80 [Alert::new] *)
Definition alert_new (lv : alert_level) (d : alert_desc) : res alert := Ok (Alert lv d).
(** src/alert.rs:82-87 [Alert::from_tls_err] *)
Definition alert_from_tls_err (e : tls_error) : alert := Alert AL_fatal (alert_from_err (te_kind e)).

(** src/tls_item.rs:380-382 [ObscureData], a tuple struct with one field *)
Record obscure := ObscureData { ob_data : bytes }.
(** src/tls_item.rs:400-402 [new] *)
Definition obscure_new (d : bytes) : obscure := ObscureData d.
(** src/tls_item.rs:404-407 [unwrap] *)
Definition obscure_unwrap (o : obscure) : bytes := let 'ObscureData d := o in d.
(** src/tls_item.rs:410-415 [deref] *)
Definition obscure_deref (o : obscure) : bytes := ob_data o.
(** src/tls_item.rs:382-397 [tls_write], [tls_read], [tls_size] *)
Definition i_obscure_data : item obscure := i_map ObscureData ob_data i_obscure.
