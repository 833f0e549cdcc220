(** Model of src/cipher/ecdhe.rs ([EllipticDiffieHellman]) over the wire types of [M_Codec.v].

    [OsRng] is a finite tape of bytes.  [next_u32] takes four of them, least significant first (rand's
    [next_u32_via_fill]); the tape running out is the operating system source failing, on which
    [OsRng::fill_bytes] panics. *)
From Verif Require Export M_Codec M_P256.

(** the state of [OsRng], src/client.rs:22, src/cipher/ecdhe.rs:135 *)
Notation rng := (list byte).
(** [RngCore::fill_bytes] (called at src/client.rs:67, not code of the crate) on a buffer of [n] bytes *)
Definition rng_fill (n : nat) : M rng bytes := fun g =>
  if (length g <? n)%nat then (Panic, g) else (Ok (firstn n g), skipn n g).
(** [RngCore::next_u32] (called at src/cipher/ecdhe.rs:139, not code of the crate) *)
Definition next_u32 : M rng Z := do* b := rng_fill 4 in mret (le_val b).

(** src/cipher/ecdhe.rs:138-140: [for i in 0..8 { x.v[i] = W(rng.next_u32()); }] *)
Fixpoint draw_limbs (is : list nat) (x : int256) : M rng int256 :=
  match is with
  | [] => mret x
  | i :: is' => do* w := next_u32 in draw_limbs is' (upd i w x)
  end.

(** src/cipher/ecdhe.rs:135-147 [get_random_x]; every turn of the [loop] takes 32 bytes from the tape *)
Fixpoint get_random_loop (m : mode) (fuel : nat) : M rng int256 :=
  match fuel with
  | O => mfail Diverge
  | S f =>
      do* x := draw_limbs (seq 0 8) ZERO in
      do* xx := mlift (reduce_once m x 0) in
      if icompare xx x =? 0 then mret x else get_random_loop m f
  end.
(** src/cipher/ecdhe.rs:135-147, with enough fuel for every tape (proved in [P_Ecdhe.v]) *)
Definition get_random_x (m : mode) : M rng int256 := fun g => get_random_loop m (S (length g)) g.

(** src/cipher/ecdhe.rs:121-162 [compute_keys]; the bytes of [data] after the parsed structure are left in the cursor *)
Definition compute_keys (m : mode) (data : bytes) : M rng (bytes * bytes) :=
  do* (params, _) := mlift (tls_read i_ske data) in
  do* gy := mlift (from_uncompressed_bytes m (ske_public params)) in
  match gy with
  | None => mfail (Err IllegalParameter)
  | Some gy =>
      let gy := to_point gy in
      do* x := get_random_x m in
      do* gx := mlift (mult_scalar m G x) in
      do* gx := mlift (normalize m gx) in
      let gx := to_uncompressed_bytes gx in
      do* gxy := mlift (mult_scalar m gy x) in
      do* gxy := mlift (normalize m gxy) in
      let pre_master_secret := to_bytes (nx gxy) in
      do* public := mlift (vec_new i_u8 1 (2 ^ 8 - 1) gx) in
      do* public := mlift (tls_write i_ec_data public) in
      mret (public, pre_master_secret)
  end.
