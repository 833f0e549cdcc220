(** Specification vocabulary for C89: the byte streams with which the client connects, without reference to its readers. *)
From Verif Require Export Spec_Client2.

(** handshake records in the clear, each with its two version bytes and its contents *)
Definition clear_run (l : list (byte * byte * bytes)) : bytes := concat (map (fun x => wire HandshakeTy (fst (fst x)) (snd (fst x)) (snd x)) l).
Definition contents (l : list (byte * byte * bytes)) : bytes := concat (map snd l).
(** not a whole handshake message yet *)
Definition incomplete (b : bytes) : Prop := exists ty body q, zlen body < 2 ^ 24 /\ frame ty body = b ++ q /\ q <> [].
(** a ServerHello may have bytes after its extensions *)
Definition hello_frame (sh : server_hello) (b : bytes) : Prop :=
  wf_server_hello sh /\ exists ignored, b = frame x02 (e_server_hello sh ++ ignored) /\ zlen (e_server_hello sh ++ ignored) < 2 ^ 24 /\
    (sh_exts sh = None -> ignored = []).
(** the server's first four messages *)
Definition first_messages (ss : session) (b : bytes) : Prop :=
  exists hello, hello_frame (s_sh ss) hello /\ wf_handshake (certificate (s_certs ss)) /\ wf_handshake (server_key_exchange (s_ske ss)) /\
    b = hello ++ e_handshake (certificate (s_certs ss)) ++ e_handshake (server_key_exchange (s_ske ss)) ++ e_handshake server_hello_done.
(** values with which the client goes on: the suite it offered, and a key exchange it can answer *)
Definition suits (m : mode) (g : rng) (ss : session) : Prop :=
  (32 <= length g)%nat /\ s_cr ss = firstn 32 g /\
  sh_version (s_sh ss) = Version x03 x03 /\ sh_suite (s_sh ss) = TLS_ECDHE_RSA_WITH_CHACHA20_POLY1305_SHA256 /\ sh_comp (s_sh ss) = CM_null /\
  exists g', compute_keys m (s_ske ss) (skipn 32 g) = (Ok (s_cke ss, s_pms ss), g').
(** [bs] begins with handshake records in the clear that contain the four messages and the incomplete rest [clear]; a
    ChangeCipherSpec; sealed handshake records which, put after [clear], contain the expected Finished and, if the last one goes
    beyond it, [extra]. Then comes [rest] *)
Definition connecting (m : mode) (g : rng) (ss : session) (bs : bytes) (n : Z) (extra rest : bytes) : Prop :=
  suits m g ss /\ exists l msgs clear maj min fs sealed,
    Forall (fun x => legal_fragment (snd x)) l /\ first_messages ss msgs /\ contents l = msgs ++ clear /\ incomplete clear /\
    Forall legal_fragment fs /\ sealed_run (k_server (s_keys ss)) (iv_server (s_keys ss)) 0 fs sealed /\ zlen fs = n /\
    clear ++ concat fs = e_handshake (s_server_fin ss) ++ extra /\ incomplete (clear ++ concat (removelast fs)) /\
    bs = clear_run l ++ wire ChangeCipherSpecTy maj min [x01] ++ sealed ++ rest.
