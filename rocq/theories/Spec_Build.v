(** Specification vocabulary for C91: what construction answers, for every stream of bytes, without reference to the readers. *)
From Verif Require Export Spec_Receive.

(** how the incoming records are protected: not at all, or under a key with the next number *)
Inductive cover := Clear | Sealed (key iv : bytes) (k : Z).
(** what the fragment [f] of a record of the given type and version holds *)
Inductive unseals : cover -> content_type -> byte -> byte -> bytes -> res bytes -> cover -> Prop :=
| O_clear t maj min f : zlen f <= 16384 -> unseals Clear t maj min f (Ok f) Clear
| O_clear_long t maj min f : 16384 < zlen f -> unseals Clear t maj min f (Err RecordOverflow) Clear
| O_sealed key iv k t maj min f p : protects key iv k t maj min p f -> zlen p <= 16384 -> unseals (Sealed key iv k) t maj min f (Ok p) (Sealed key iv (k + 1))
| O_overlong key iv k t maj min f p : protects key iv k t maj min p f -> 16384 < zlen p -> unseals (Sealed key iv k) t maj min f Panic (Sealed key iv k)
| O_forged key iv k t maj min f : (forall p, ~ protects key iv k t maj min p f) -> unseals (Sealed key iv k) t maj min f (Err BadRecordMac) (Sealed key iv k).
(** the next record: its type and what it holds *)
Inductive fetch : cover -> bytes -> res (content_type * bytes) -> cover -> bytes -> Prop :=
| G_end v bs : cut_record bs -> fetch v bs (Err IoFailure) v []
| G_type v b bs : (forall t, b <> z2b (rfc_content_type t)) -> fetch v (b :: bs) (Err UnexpectedMessage) v bs
| G_long v t maj min n bs : 18432 < n < 65536 -> fetch v (z2b (rfc_content_type t) :: maj :: min :: be 2 n ++ bs) (Err RecordOverflow) v bs
| G_record v t maj min f bs p v' : zlen f <= 18432 -> unseals v t maj min f (Ok p) v' -> fetch v (wire t maj min f ++ bs) (Ok (t, p)) v' bs
| G_refused v t maj min f bs e v' : zlen f <= 18432 -> unseals v t maj min f (Err e) v' -> fetch v (wire t maj min f ++ bs) (Err e) v' bs
| G_panic v t maj min f bs v' : zlen f <= 18432 -> unseals v t maj min f Panic v' -> fetch v (wire t maj min f ++ bs) Panic v' bs.
(** a record that is no handshake record *)
Inductive carries : content_type -> bytes -> res message -> Prop :=
| K_data p : carries ApplicationDataTy p (Ok (ApplicationDataMessage p))
| K_alert l d q : carries AlertTy (z2b (rfc_alert_level l) :: z2b (rfc_alert_desc d) :: q) (Ok (AlertMessage (Alert l d)))
| K_no_alert p : (forall l d q, p <> z2b (rfc_alert_level l) :: z2b (rfc_alert_desc d) :: q) -> carries AlertTy p (Err UnexpectedMessage)
| K_ccs : carries ChangeCipherSpecTy [x01] (Ok ChangeCipherSpecMessage)
| K_no_ccs p : p <> [x01] -> carries ChangeCipherSpecTy p (Err UnexpectedMessage).
(** the next message, with [pend] kept from earlier handshake records *)
Inductive comes : cover -> bytes -> bytes -> res message -> cover -> bytes -> bytes -> Prop :=
| N_message v ty body q bs h : zlen body < 2 ^ 24 -> hs_read (frame ty body) = Ok (h, []) -> comes v (frame ty body ++ q) bs (Ok (HandshakeMessage h)) v q bs
| N_malformed v ty body q bs e : zlen body < 2 ^ 24 -> hs_read (frame ty body) = Err e -> comes v (frame ty body ++ q) bs (Err e) v q bs
| N_error v pend bs e v' bs' : incomplete pend -> fetch v bs (Err e) v' bs' -> comes v pend bs (Err e) v' pend bs'
| N_panic v pend bs v' bs' : incomplete pend -> fetch v bs Panic v' bs' -> comes v pend bs Panic v' pend bs'
| N_other v pend bs t p v' bs' x : incomplete pend -> fetch v bs (Ok (t, p)) v' bs' -> carries t p x -> comes v pend bs x v' pend bs'
| N_empty v pend bs v' bs' : incomplete pend -> fetch v bs (Ok (HandshakeTy, [])) v' bs' -> comes v pend bs (Err UnexpectedMessage) v' pend bs'
| N_more v pend bs p v1 bs1 x v' pend' bs' : incomplete pend -> fetch v bs (Ok (HandshakeTy, p)) v1 bs1 -> p <> [] ->
    comes v1 (pend ++ p) bs1 x v' pend' bs' -> comes v pend bs x v' pend' bs'.

(** where a handshake message is awaited, an alert has an error of its own *)
Definition as_handshake (x : res message) : res handshake :=
  match x with
  | Ok (HandshakeMessage h) => Ok h | Ok (AlertMessage _) => Err AlertReceived | Ok _ => Err UnexpectedMessage
  | Err e => Err e | Panic => Panic | Diverge => Diverge
  end.
Definition asks (v : cover) (pend bs : bytes) (x : res handshake) (v' : cover) (pend' bs' : bytes) : Prop :=
  exists y, comes v pend bs y v' pend' bs' /\ x = as_handshake y.
(** and where a ChangeCipherSpec is awaited it has not *)
Definition as_ccs (x : res message) : res unit :=
  match x with Ok ChangeCipherSpecMessage => Ok tt | Ok _ => Err UnexpectedMessage | Err e => Err e | Panic => Panic | Diverge => Diverge end.
(** the end of the run when another message was awaited *)
Inductive turned_away (P : handshake -> Prop) : res handshake -> res unit -> Prop :=
| T_other h : ~ P h -> turned_away P (Ok h) (Err UnexpectedMessage)
| T_error e : turned_away P (Err e) (Err e)
| T_panic : turned_away P Panic Panic.

(** the server's first flight: accepted up to the ServerHello, the Certificate, the ServerKeyExchange *)
Inductive greeted (bs : bytes) : server_hello -> bytes -> bytes -> Prop :=
| Greeted sh p1 b1 : asks Clear [] bs (Ok (server_hello_msg sh)) Clear p1 b1 -> offered sh -> greeted bs sh p1 b1.
Inductive shown (bs : bytes) : server_hello -> list bytes -> bytes -> bytes -> Prop :=
| Shown sh certs p1 b1 p2 b2 : greeted bs sh p1 b1 -> asks Clear p1 b1 (Ok (certificate certs)) Clear p2 b2 -> shown bs sh certs p2 b2.
Inductive given (bs : bytes) : server_hello -> list bytes -> bytes -> bytes -> bytes -> Prop :=
| Given sh certs skx p2 b2 p3 b3 : shown bs sh certs p2 b2 -> asks Clear p2 b2 (Ok (server_key_exchange skx)) Clear p3 b3 -> given bs sh certs skx p3 b3.
(** it ends the run with [y]; [g] is what is left of the random bytes *)
Inductive flight_ends (m : mode) (g : rng) (bs : bytes) : res unit -> Prop :=
| S_hello x y v p b : asks Clear [] bs x v p b -> turned_away (fun h => exists sh, h = server_hello_msg sh) x y -> flight_ends m g bs y
| S_parameters sh p b : asks Clear [] bs (Ok (server_hello_msg sh)) Clear p b -> ~ offered sh -> flight_ends m g bs (Err IllegalParameter)
| S_certificate sh p1 b1 x y v p b : greeted bs sh p1 b1 -> asks Clear p1 b1 x v p b -> turned_away (fun h => exists certs, h = certificate certs) x y -> flight_ends m g bs y
| S_exchange sh certs p2 b2 x y v p b : shown bs sh certs p2 b2 -> asks Clear p2 b2 x v p b -> turned_away (fun h => exists skx, h = server_key_exchange skx) x y -> flight_ends m g bs y
| S_keys sh certs skx p3 b3 e g' : given bs sh certs skx p3 b3 -> compute_keys m skx g = (Err e, g') -> flight_ends m g bs (Err e)
| S_crash sh certs skx p3 b3 g' : given bs sh certs skx p3 b3 -> compute_keys m skx g = (Panic, g') -> flight_ends m g bs Panic
| S_done sh certs skx p3 b3 kp g' x y v p b : given bs sh certs skx p3 b3 -> compute_keys m skx g = (Ok kp, g') ->
    asks Clear p3 b3 x v p b -> turned_away (fun h => h = server_hello_done) x y -> flight_ends m g bs y.
(** it is accepted as a whole; [g] are all the random bytes *)
Definition passes (m : mode) (g : rng) (bs : bytes) (ss : session) (pend rest : bytes) : Prop :=
  (32 <= length g)%nat /\ s_cr ss = firstn 32 g /\
  exists p3 b3 g', given bs (s_sh ss) (s_certs ss) (s_ske ss) p3 b3 /\ compute_keys m (s_ske ss) (skipn 32 g) = (Ok (s_cke ss, s_pms ss), g') /\
    asks Clear p3 b3 (Ok server_hello_done) Clear pend rest.
Definition server_cover (ss : session) : cover := Sealed (k_server (s_keys ss)) (iv_server (s_keys ss)) 0.
(** the whole construction: its result and how far it got *)
Inductive building (m : mode) (g : rng) (bs : bytes) : res unit -> stage -> Prop :=
| B_tape : (length g < 32)%nat -> building m g bs Panic Nothing
| B_first y : (32 <= length g)%nat -> flight_ends m (skipn 32 g) bs y -> building m g bs y (Hello (firstn 32 g))
| B_ccs ss pend rest x v p b : passes m g bs ss pend rest -> comes Clear pend rest x v p b -> x <> Ok ChangeCipherSpecMessage -> building m g bs (as_ccs x) (Complete ss)
| B_finished ss pend rest p1 b1 x y v p b : passes m g bs ss pend rest -> comes Clear pend rest (Ok ChangeCipherSpecMessage) Clear p1 b1 ->
    asks (server_cover ss) p1 b1 x v p b -> turned_away (fun h => exists d, h = finished d) x y -> building m g bs y (Complete ss)
| B_verify ss pend rest p1 b1 d v p b : passes m g bs ss pend rest -> comes Clear pend rest (Ok ChangeCipherSpecMessage) Clear p1 b1 ->
    asks (server_cover ss) p1 b1 (Ok (finished d)) v p b -> d <> expected_server ss -> building m g bs (Err DecryptError) (Complete ss)
| B_done ss pend rest p1 b1 v p b : passes m g bs ss pend rest -> comes Clear pend rest (Ok ChangeCipherSpecMessage) Clear p1 b1 ->
    asks (server_cover ss) p1 b1 (Ok (finished (expected_server ss))) v p b -> building m g bs (Ok tt) (Complete ss).
(** what has been sent in the end: the alert after any error but that of the transport *)
Definition all_sent (x : res unit) (st : stage) : bytes := stage_out st ++ match x with Err e => signal st e | _ => [] end.
(** how far the run got *)
Definition stage_at (m : mode) (s : src) (g : rng) (st : stage) : Prop :=
  match st with Nothing => (length g < 32)%nat | Hello cr => (32 <= length g)%nat /\ cr = firstn 32 g /\ forall ss, ~ reached m s g (Complete ss) | Complete ss => reached m s g (Complete ss) end.
