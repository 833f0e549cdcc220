(** Specification vocabulary for C117: guessing tags of a record that was held back. *)
From Verif Require Export Spec_Repeat Spec_Tries.
Local Open Scope list_scope.
Local Open Scope Z_scope.

(** a record with this ciphertext and tag *)
Definition with_tag (c t : bytes) : bogus := Bogus ApplicationDataTy x03 x03 (c ++ t).
(** the one-time key gives this record, as number [k], the tag at its end *)
Definition tag_right (m : mode) (k : Z) (otk : bytes) (a : bogus) : Prop := let n := (length (f_body a) - 16)%nat in
  (16 <= length (f_body a))%nat /\ compute_mac m otk (firstn n (f_body a)) (rfc_ad k (f_type a) (f_major a) (f_minor a) (zlen (f_body a) - 16)) = Ok (skipn n (f_body a)).
