(** Specification vocabulary for C116: what a record number that is used twice gives away. *)
From Verif Require Export Spec_Commit Spec_Client.
Local Open Scope list_scope.
Local Open Scope Z_scope.

(** the value of the polynomial of additional data and ciphertext at [x] *)
Definition value_at (x : Z) (ad c : bytes) : Z := poly_acc x (aead_mac_data ad c) (nblocks (aead_mac_data ad c)).
(** the tag of a second ciphertext, from that of a first one, for someone who has the point [x] but no key *)
Definition moved (x : Z) (ad c t ad' c' : bytes) : bytes := le 16 (le_val t - value_at x ad c + value_at x ad' c').
(** the ciphertext of other data, for someone who has a ciphertext and its data *)
Definition swapped (c p p' : bytes) : bytes := map (fun i => bxor (bxor (nth i c x00) (nth i p x00)) (nth i p' x00)) (seq 0 (length p')).
(** a point that explains two ciphertexts, of which the first came with only a part [t1] of its tag *)
Definition guess (ad1 c1 t1 ad2 c2 t2 : bytes) (x : Z) : Prop := 0 <= x < 2 ^ 124 /\ firstn (length t1) (moved x ad2 c2 t2 ad1 c1) = t1.
(** the beginning of [c] with the bits of [e] changed *)
Definition changed (c e : bytes) : bytes := map (fun i => bxor (nth i c x00) (nth i e x00)) (seq 0 (length e)).
