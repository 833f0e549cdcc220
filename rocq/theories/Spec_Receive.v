(** Specification vocabulary for C90: what reading gives, for every stream of bytes, without reference to the readers. *)
From Verif Require Export Spec_Accept Spec_Client4.

(** the stream ends in the middle of a record *)
Definition cut_record (bs : bytes) : Prop :=
  bs = [] \/ exists t l, bs = z2b (rfc_content_type t) :: l /\
    (zlen l < 4 \/ exists maj min n f, l = maj :: min :: be 2 n ++ f /\ zlen f < n <= 18432).
(** what a record that is not a handshake record means for [read_application_data]; bytes of an alert after the second one do not matter *)
Inductive means : content_type -> bytes -> res bytes -> Prop :=
| M_data p : means ApplicationDataTy p (Ok p)
| M_close l q : means AlertTy (z2b (rfc_alert_level l) :: x00 :: q) (Ok [])
| M_alert l d q : d <> AD_close_notify -> means AlertTy (z2b (rfc_alert_level l) :: z2b (rfc_alert_desc d) :: q) Panic
| M_no_alert p : (forall l d q, p <> z2b (rfc_alert_level l) :: z2b (rfc_alert_desc d) :: q) -> means AlertTy p (Err UnexpectedMessage)
| M_ccs : means ChangeCipherSpecTy [x01] Panic
| M_no_ccs p : p <> [x01] -> means ChangeCipherSpecTy p (Err UnexpectedMessage).
(** a whole handshake message: a panic, unless it is no handshake message *)
Definition unwelcome (b : bytes) (x : res bytes) : Prop :=
  (x = Panic /\ exists h, hs_read b = Ok (h, [])) \/ (exists e, x = Err e /\ hs_read b = Err e).

(** [receive key iv k pend bs x k' pend' bs']: with [pend] kept from earlier handshake records, and [bs] to come under the numbers
    from [k], the answer is [x], and [k'], [pend'], [bs'] are what is left *)
Inductive receive (key iv : bytes) : Z -> bytes -> bytes -> res bytes -> Z -> bytes -> bytes -> Prop :=
| V_message k ty body q bs x : zlen body < 2 ^ 24 -> unwelcome (frame ty body) x -> receive key iv k (frame ty body ++ q) bs x k q bs
| V_end k pend bs : incomplete pend -> cut_record bs -> receive key iv k pend bs (Err IoFailure) k pend []
| V_type k pend b bs : incomplete pend -> (forall t, b <> z2b (rfc_content_type t)) -> receive key iv k pend (b :: bs) (Err UnexpectedMessage) k pend bs
| V_long k pend t maj min n bs : incomplete pend -> 18432 < n < 65536 ->
    receive key iv k pend (z2b (rfc_content_type t) :: maj :: min :: be 2 n ++ bs) (Err RecordOverflow) k pend bs
| V_forged k pend t maj min f bs : incomplete pend -> zlen f <= 18432 -> (forall p, ~ protects key iv k t maj min p f) ->
    receive key iv k pend (wire t maj min f ++ bs) (Err BadRecordMac) k pend bs
| V_overlong k pend t maj min p f bs : incomplete pend -> zlen f <= 18432 -> protects key iv k t maj min p f -> 16384 < zlen p ->
    receive key iv k pend (wire t maj min f ++ bs) Panic k pend bs
| V_record k pend t maj min p f bs x : incomplete pend -> protects key iv k t maj min p f -> zlen p <= 16384 -> means t p x ->
    receive key iv k pend (wire t maj min f ++ bs) x (k + 1) pend bs
| V_empty k pend maj min f bs : incomplete pend -> protects key iv k HandshakeTy maj min [] f ->
    receive key iv k pend (wire HandshakeTy maj min f ++ bs) (Err UnexpectedMessage) (k + 1) pend bs
| V_more k pend maj min p f bs x k' pend' bs' : incomplete pend -> protects key iv k HandshakeTy maj min p f -> legal_fragment p ->
    receive key iv (k + 1) (pend ++ p) bs x k' pend' bs' -> receive key iv k pend (wire HandshakeTy maj min f ++ bs) x k' pend' bs'.

(** [filling key iv n buf k pend bs x buf' k' pend' bs']: [read] with room for [n] bytes when [buf] was received before. An error ends it, and is not reported *)
Inductive filling (key iv : bytes) : nat -> bytes -> Z -> bytes -> bytes -> res bytes -> bytes -> Z -> bytes -> bytes -> Prop :=
| F_enough n buf k pend bs : (n <= length buf)%nat -> filling key iv n buf k pend bs (Ok (firstn n buf)) (skipn n buf) k pend bs
| F_data n buf k pend bs d k1 pend1 bs1 x buf' k' pend' bs' : (length buf < n)%nat -> receive key iv k pend bs (Ok d) k1 pend1 bs1 ->
    filling key iv (n - length buf) d k1 pend1 bs1 (Ok x) buf' k' pend' bs' -> filling key iv n buf k pend bs (Ok (buf ++ x)) buf' k' pend' bs'
| F_stop n buf k pend bs e k1 pend1 bs1 : (length buf < n)%nat -> receive key iv k pend bs (Err e) k1 pend1 bs1 ->
    filling key iv n buf k pend bs (Ok buf) [] k1 pend1 bs1
| F_panic n buf k pend bs k1 pend1 bs1 : (length buf < n)%nat -> receive key iv k pend bs Panic k1 pend1 bs1 ->
    filling key iv n buf k pend bs Panic [] k1 pend1 bs1
| F_panic_later n buf k pend bs d k1 pend1 bs1 buf' k' pend' bs' : (length buf < n)%nat -> receive key iv k pend bs (Ok d) k1 pend1 bs1 ->
    filling key iv (n - length buf) d k1 pend1 bs1 Panic buf' k' pend' bs' -> filling key iv n buf k pend bs Panic buf' k' pend' bs'.

(** a reader with the keys, [pend] in its buffer and [bs] to come; a client that has one, with [buf] received before *)
Definition poised (m : mode) (r : reader) (key iv : bytes) (k : Z) (pend bs : bytes) : Prop :=
  keyed m r key iv k /\ clean (r_src r) /\ r_buf r = pend /\ stream (r_src r) = bs.
Definition has (m : mode) (c : client) (key iv : bytes) (buf : bytes) (k : Z) (pend bs : bytes) : Prop :=
  poised m (c_reader c) key iv k pend bs /\ c_buf c = buf.
