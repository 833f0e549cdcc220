(** More specification vocabulary for src/client.rs: the handshake bytes that belong to the Finished message. *)
From Verif Require Export Spec_Client.

(** consecutive handshake records with contents [fs], of any version, sealed under the numbers from [k] *)
Inductive sealed_run (key iv : bytes) : Z -> list bytes -> bytes -> Prop :=
| SR_nil k : sealed_run key iv k [] []
| SR_cons k f maj min fs bs : sealed_run key iv (k + 1) fs bs ->
    sealed_run key iv k (f :: fs)
      (wire HandshakeTy maj min (aead_seal key (rfc_nonce iv k) (rfc_ad k HandshakeTy maj min (zlen f)) f) ++ bs).
(** where the Finished message of a completed handshake came from: [clear], left over from the records in the
    clear, then the sealed handshake records [fs]; [extra] is left over in turn *)
Definition finished_from (ss : session) (clear : bytes) (fs : list bytes) (extra : bytes) : Prop :=
  clear ++ concat fs = e_handshake (s_server_fin ss) ++ extra /\ (length clear < 16)%nat.

(** ** Agreement on the transcript *)
Definition transcript_bytes (T : list handshake) : bytes := concat (map e_handshake T).
(** the transport carries a record that authenticates under the server's key as its first one, and is not the one
    the server made: a handshake record with contents [q] *)
Definition forged_first (s : src) (key iv q : bytes) : Prop :=
  exists t p, sealed_in s key iv 0 t p /\ (t, p) <> (HandshakeTy, q).
(** the first [n] bytes of [e], all the header and some of the contents, and then the beginning of [q], make up [e] *)
Definition spliced (e q : bytes) : Prop := exists n, (4 <= n < 16)%nat /\ e = firstn n e ++ firstn (16 - n) q.
(** two different inputs of the hash, or of the PRF after it, with the same result *)
Definition hash_collision (a b : bytes) : Prop := a <> b /\ SHA256 a = SHA256 b.
Definition finished_collision (label : string) (ms1 h1 ms2 h2 : bytes) : Prop :=
  (ms1, h1) <> (ms2, h2) /\ PRF ms1 label h1 12 = PRF ms2 label h2 12.

(** ** Memory *)
(** the longest incomplete handshake message (a 24-bit length and its 4-byte header, less one byte), and one record *)
Definition handshake_limit : Z := (2 ^ 24 - 1 + 4 - 1) + 2 ^ 14.
Definition within_limits (c : client) : Prop :=
  zlen (r_buf (c_reader c)) <= handshake_limit /\ zlen (c_buf c) <= 2 ^ 14.

(** ** Randomness *)
(** the client with [g] left to draw from *)
Definition set_rng (c : client) (g : rng) : client := Client (c_reader c) (c_writer c) g (c_buf c).
