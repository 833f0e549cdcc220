(** Counting the one-time keys of Poly1305 that explain tags. *)
From Verif Require Export Spec_Crypto.

(** the blocks of 16 bytes authenticated for a ciphertext and its additional data: both padded, and the two lengths *)
Definition mac_blocks (ad ct : bytes) : Z := (zlen ad + 15) / 16 + (zlen ct + 15) / 16 + 1.
