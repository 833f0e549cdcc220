(** Model of src/cipher/prf.rs. *)
From Verif Require Export M_Sha2.

(** src/cipher/prf.rs:8-28 [hmac_sha256]; a key above 64 bytes hits [unimplemented!] *)
Definition hmac_sha256 (m : mode) (key msg : bytes) : res bytes :=
  if (64 <? length key)%nat then Panic
  else
    let i_msg := xor_into (repeat x36 64) key in
    let o_msg := xor_into (repeat x5c 64) key in
    let* h_i := sha256 m (i_msg ++ msg) in
    sha256 m (o_msg ++ h_i).

(** src/cipher/prf.rs:30-35 *)
Record prf := Prf { p_secret : bytes; p_seed : bytes; p_a : bytes; p_buf : bytes }.

(** src/cipher/prf.rs:38-47 *)
Definition prf_new (m : mode) (secret seed : bytes) : res prf :=
  let* a1 := hmac_sha256 m secret seed in
  Ok (Prf secret seed a1 []).

(** src/cipher/prf.rs:50-57 *)
Definition next_block (m : mode) (p : prf) : res (bytes * prf) :=
  let* next := hmac_sha256 m (p_secret p) (p_a p ++ p_seed p) in
  let* a := hmac_sha256 m (p_secret p) (p_a p) in
  Ok (next, Prf (p_secret p) (p_seed p) a (p_buf p)).

(** src/cipher/prf.rs:76-86: the [while] loop; each turn adds 32 bytes or leaves, [fuel] is [size] *)
Fixpoint get_loop (m : mode) (fuel : nat) (size : nat) (ret : bytes) (p : prf) : res (bytes * prf) :=
  if (length ret <? size)%nat then
    match fuel with
    | O => Diverge
    | S f =>
        let* (nb, p) := next_block m p in
        let slice_len := (size - length ret)%nat in
        if (32 <? slice_len)%nat then get_loop m f size (ret ++ nb) p
        else Ok (ret ++ firstn slice_len nb, Prf (p_secret p) (p_seed p) (p_a p) (skipn slice_len nb))
    end
  else Ok (ret, p).

(** src/cipher/prf.rs:59-89 [get_bytes] *)
Definition get_bytes (m : mode) (size : nat) (p : prf) : res (bytes * prf) :=
  let buf := p_buf p in
  if (0 <? length buf)%nat then
    if (length buf <=? size)%nat then
      get_loop m size size buf (Prf (p_secret p) (p_seed p) (p_a p) [])
    else Ok (firstn size buf, Prf (p_secret p) (p_seed p) (p_a p) (skipn size buf))
  else get_loop m size size [] p.
