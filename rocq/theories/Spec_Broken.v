(** C95: transports whose reads fail, or give nothing, and go on afterwards. *)
From Verif Require Export Spec_Life.
Local Open Scope list_scope.
Local Open Scope Z_scope.

(** the bytes up to the first failed or empty read, those up to the next one, and so on; after the last of them nothing comes any more *)
Fixpoint stretches (s : src) : list bytes :=
  match s with
  | [] => [[]]
  | RData (b :: bs) :: r => match stretches r with x :: l => ((b :: bs) ++ x) :: l | [] => [] end
  | _ :: r => [] :: stretches r
  end.
(** what is left when the end of a stretch was met *)
Definition onward (l : list bytes) : list bytes := match l with [] => [[]] | _ => l end.

(** [starves key iv k pend b k' pend']: in the bytes [b] there is nothing to answer with, at most some handshake records and a part of a record *)
Inductive starves (key iv : bytes) : Z -> bytes -> bytes -> Z -> bytes -> Prop :=
| S_end k pend b : incomplete pend -> cut_record b -> starves key iv k pend b k pend
| S_more k pend maj min p f b k' pend' : incomplete pend -> protects key iv k HandshakeTy maj min p f -> legal_fragment p ->
    starves key iv (k + 1) (pend ++ p) b k' pend' -> starves key iv k pend (wire HandshakeTy maj min f ++ b) k' pend'.
(** [receive] for stretches: an answer from the first one; or the end of it, and the part of a record before it is lost *)
Inductive catches (key iv : bytes) : Z -> bytes -> list bytes -> res bytes -> Z -> bytes -> list bytes -> Prop :=
| H_here k pend b l x k' pend' b' : receive key iv k pend b x k' pend' b' -> (forall k2 pend2, ~ starves key iv k pend b k2 pend2) ->
    catches key iv k pend (b :: l) x k' pend' (b' :: l)
| H_out k pend b l k' pend' : starves key iv k pend b k' pend' -> catches key iv k pend (b :: l) (Err IoFailure) k' pend' (onward l).
(** [filling], [life] and [lifetime] for stretches *)
Inductive hauls (key iv : bytes) : nat -> bytes -> Z -> bytes -> list bytes -> res bytes -> bytes -> Z -> bytes -> list bytes -> Prop :=
| U_enough n buf k pend bs : (n <= length buf)%nat -> hauls key iv n buf k pend bs (Ok (firstn n buf)) (skipn n buf) k pend bs
| U_data n buf k pend bs d k1 pend1 bs1 x buf' k' pend' bs' : (length buf < n)%nat -> catches key iv k pend bs (Ok d) k1 pend1 bs1 ->
    hauls key iv (n - length buf) d k1 pend1 bs1 (Ok x) buf' k' pend' bs' -> hauls key iv n buf k pend bs (Ok (buf ++ x)) buf' k' pend' bs'
| U_stop n buf k pend bs e k1 pend1 bs1 : (length buf < n)%nat -> catches key iv k pend bs (Err e) k1 pend1 bs1 ->
    hauls key iv n buf k pend bs (Ok buf) [] k1 pend1 bs1
| U_panic n buf k pend bs k1 pend1 bs1 : (length buf < n)%nat -> catches key iv k pend bs Panic k1 pend1 bs1 ->
    hauls key iv n buf k pend bs Panic [] k1 pend1 bs1
| U_panic_later n buf k pend bs d k1 pend1 bs1 buf' k' pend' bs' : (length buf < n)%nat -> catches key iv k pend bs (Ok d) k1 pend1 bs1 ->
    hauls key iv (n - length buf) d k1 pend1 bs1 Panic buf' k' pend' bs' -> hauls key iv n buf k pend bs Panic buf' k' pend' bs'.
Inductive career (ks ivs kc ivc : bytes) : application -> bytes -> Z -> bytes -> list bytes -> Z -> list answer -> bytes -> Prop :=
| C_quit buf k pend bs j : career ks ivs kc ivc Quit buf k pend bs j [] []
| C_read n next buf k pend bs j d buf' k' pend' bs' l out : hauls ks ivs n buf k pend bs (Ok d) buf' k' pend' bs' ->
    career ks ivs kc ivc (next (Got (Ok d))) buf' k' pend' bs' j l out -> career ks ivs kc ivc (Do (Read n) next) buf k pend bs j (Got (Ok d) :: l) out
| C_panic n next buf k pend bs j buf' k' pend' bs' : hauls ks ivs n buf k pend bs Panic buf' k' pend' bs' ->
    career ks ivs kc ivc (Do (Read n) next) buf k pend bs j [Got Panic] []
| C_write d next buf k pend bs j fs l out : parcels d fs -> career ks ivs kc ivc (next (Wrote (Ok (zlen d)))) buf k pend bs (j + zlen fs) l out ->
    career ks ivs kc ivc (Do (Write d) next) buf k pend bs j (Wrote (Ok (zlen d)) :: l) (sealed_stream kc ivc j ApplicationDataTy fs ++ out)
| C_close next buf k pend bs j l out : career ks ivs kc ivc (next (Closed (Ok tt))) buf k pend bs (j + 1) l out ->
    career ks ivs kc ivc (Do Close next) buf k pend bs j (Closed (Ok tt) :: l) (sealed_record kc ivc j AlertTy [x02; x00] ++ out).
(** construction sees the first stretch only *)
Inductive lifespan (m : mode) (g : rng) (q : application) : list bytes -> res unit -> list answer -> bytes -> Prop :=
| Span_refused b more x st : x <> Ok tt -> building m g b x st -> lifespan m g q (b :: more) x [] (all_sent x st)
| Span_led ss b more n extra rest l out : connecting m g ss b n extra rest ->
    career (k_server (s_keys ss)) (iv_server (s_keys ss)) (k_client (s_keys ss)) (iv_client (s_keys ss)) q [] n extra (rest :: more) 1 l out ->
    lifespan m g q (b :: more) (Ok tt) l (stage_out (Complete ss) ++ out).

(** a reader with the keys and [pend] in its buffer, before the stretches [l]; a client that has one, with [buf] received before *)
Definition placed (m : mode) (r : reader) (key iv : bytes) (k : Z) (pend : bytes) (l : list bytes) : Prop :=
  keyed m r key iv k /\ r_buf r = pend /\ stretches (r_src r) = l.
Definition standing (m : mode) (c : client) (key iv : bytes) (buf : bytes) (k : Z) (pend : bytes) (l : list bytes) : Prop :=
  placed m (c_reader c) key iv k pend l /\ c_buf c = buf.
(** the same call again and again *)
Fixpoint tries (m : mode) (n j : nat) (c : client) : list (res bytes) :=
  match j with O => [] | S i => let (x, c1) := client_read m n c in x :: tries m n i c1 end.
