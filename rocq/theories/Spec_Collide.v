(** Specification vocabulary for C110: where equal hash values come from. *)
From Verif Require Export Spec_Crypto.

(** eight words *)
Definition eight_words (H : eight) : Prop :=
  let '(a, b, c, d, e, f, g, h) := H in
  is_word a /\ is_word b /\ is_word c /\ is_word d /\ is_word e /\ is_word f /\ is_word g /\ is_word h.
(** what the compression function is given in the [i]-th step of hashing [msg]: a block and the value so far *)
Definition sha_blocks (msg : bytes) : nat := length (fips_pad msg) / 64.
Definition sha_step (msg : bytes) (i : nat) : bytes * eight := (firstn 64 (skipn (64 * i) (fips_pad msg)), chain (fips_pad msg) i).
(** step [i] for [a] and step [j] for [b] are a collision of the compression function *)
Definition collide_at (a : bytes) (i : nat) (b : bytes) (j : nat) : Prop :=
  (i < sha_blocks a)%nat /\ (j < sha_blocks b)%nat /\ sha_step a i <> sha_step b j /\
  sha_compress (fst (sha_step a i)) (snd (sha_step a i)) = sha_compress (fst (sha_step b j)) (snd (sha_step b j)).
(** hashing the two messages meets one: in the same step if they are of one length, in the last steps otherwise *)
Definition collides (a b : bytes) : Prop :=
  (length a = length b /\ exists i, collide_at a i b i) \/ (length a <> length b /\ collide_at a (sha_blocks a - 1) b (sha_blocks b - 1)).
(** the hash value as eight words *)
Definition value_of (h : bytes) : eight :=
  let w i := be_val (firstn 4 (skipn (4 * i) h)) in (w 0%nat, w 1%nat, w 2%nat, w 3%nat, w 4%nat, w 5%nat, w 6%nat, w 7%nat).
Definition hash_bytes (H : eight) : bytes :=
  let '(h0, h1, h2, h3, h4, h5, h6, h7) := H in be 4 h0 ++ be 4 h1 ++ be 4 h2 ++ be 4 h3 ++ be 4 h4 ++ be 4 h5 ++ be 4 h6 ++ be 4 h7.
(** going on from a value over whole blocks *)
Definition go_on (H : eight) (tail : bytes) : eight :=
  fold_left (fun v i => sha_compress (firstn 64 (skipn (64 * i) tail)) v) (seq 0 (length tail / 64)) H.
(** the hash of an extended message from the hash of the message, its length and the extension: [n] is the length of the
    padded message *)
Definition extend_hash (h : bytes) (n : Z) (x : bytes) : bytes :=
  hash_bytes (go_on (value_of h) (x ++ [x80] ++ zeros (pad_zeros (length x)) ++ be 8 (8 * (n + zlen x)))).
(** the two halves of HMAC *)
Definition inner_text (K text : bytes) : bytes := map (bxor x36) (hmac_key K) ++ text.
Definition outer_text (K text : bytes) : bytes := map (bxor x5c) (hmac_key K) ++ SHA256 (inner_text K text).
