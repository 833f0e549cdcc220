(** C106: the cipher over any key stream, and what a record says to an observer who does not have it. *)
From Verif Require Export Spec_Life Spec_Client4.
Local Open Scope list_scope.
Local Open Scope Z_scope.

(** a key stream for each nonce, byte by byte *)
Definition otp := bytes -> nat -> byte.
(** RFC 7539 2.8 over a key stream: the first 32 bytes are the key of the MAC, the data is masked from byte 64 on *)
Definition masked (B : otp) (nonce data : bytes) : bytes := map (fun i => bxor (nth i data x00) (B nonce (64 + i)%nat)) (seq 0 (length data)).
Definition seal_by (B : otp) (nonce aad data : bytes) : bytes :=
  masked B nonce data ++ poly1305_mac (aead_mac_data aad (masked B nonce data)) (map (B nonce) (seq 0 16)) (map (B nonce) (seq 16 16)).
(** the one of ChaCha20: block after block from number 0 *)
Definition chacha_pad (key : bytes) : otp := fun nonce i => nth (i mod 64) (chacha20_block key (Z.of_nat (i / 64)) nonce) x00.
(** records *)
Definition record_by (B : otp) (iv : bytes) (k : Z) (t : content_type) (f : bytes) : bytes :=
  e_record t (seal_by B (rfc_nonce iv k) (rfc_ad k t x03 x03 (zlen f)) f).
Fixpoint items_by (B : otp) (iv : bytes) (k : Z) (it : list (content_type * bytes)) : bytes :=
  match it with
  | [] => []
  | (t, f) :: it' => record_by B iv k t f ++ items_by B iv (k + 1) it'
  end.
(** all that a client says in a session *)
Definition uttering (ss : session) (B : otp) (it : list (content_type * bytes)) : bytes :=
  flight_hello (s_cr ss) ++ flight_exchange ss ++ record_by B (iv_client (s_keys ss)) 0 HandshakeTy (e_handshake (s_client_fin ss)) ++
  items_by B (iv_client (s_keys ss)) 1 it.

(** records of the same types and lengths *)
Definition evenly (it it' : list (content_type * bytes)) : Prop := Forall2 (fun x y => fst x = fst y /\ length (snd x) = length (snd y)) it it'.
(** the key stream with both data exchanged: changed where the records with the numbers from [k] on are masked, and nowhere else *)
Definition nonce_eqb (a b : bytes) : bool := if list_eq_dec byte_eq_dec a b then true else false.
Fixpoint turn (iv : bytes) (k : Z) (it it' : list (content_type * bytes)) (B : otp) : otp :=
  match it, it' with
  | (_, f) :: l, (_, f') :: l' => fun n i =>
      if nonce_eqb n (rfc_nonce iv k) && (64 <=? i)%nat && (i <? 64 + length f)%nat
      then bxor (B n i) (bxor (nth (i - 64) f x00) (nth (i - 64) f' x00))
      else turn iv (k + 1) l l' B n i
  | _, _ => B
  end.

(** the records of a list of calls, exactly *)
Inductive issues : list call -> list (content_type * bytes) -> Prop :=
| I_nil : issues [] []
| I_read n l it : issues l it -> issues (Read n :: l) it
| I_write d fs l it : parcels d fs -> issues l it -> issues (Write d :: l) (map (pair ApplicationDataTy) fs ++ it)
| I_close l it : issues l it -> issues (Close :: l) ((AlertTy, [x02; x00]) :: it).
(** the same calls with other data of the same lengths *)
Definition same_size (l l' : list call) : Prop := Forall2 (fun o o' => match o, o' with
  | Read n, Read n' => True
  | Write d, Write d' => zlen d = zlen d'
  | Close, Close => True
  | _, _ => False end) l l'.
