(** A whole session for every stream of bytes: construction, then any application. *)
From Verif Require Export Spec_Build Spec_Talk Spec_Std.
Local Open Scope list_scope.
Local Open Scope Z_scope.

(** an application at work on a connected client; a panic ends it *)
Fixpoint use (m : mode) (q : application) (c : client) : list answer * client :=
  match q with
  | Quit => ([], c)
  | Do o next =>
      let (a, c1) := do_call m o c in
      if crashed a then ([a], c1) else let (l, c2) := use m (next a) c1 in (a :: l, c2)
  end.
(** it starts if construction succeeds *)
Definition sitting (m : mode) (q : application) (s : src) (p : list wevent) (g : rng) : res unit * list answer * client :=
  match client_new m s p g with
  | (Ok tt, c) => let (l, c') := use m q c in (Ok tt, l, c')
  | (x, c) => (x, [], c)
  end.

(** ** What happens *)
(** data in records: full ones, and what is left *)
Inductive parcels : bytes -> list bytes -> Prop :=
| P_none : parcels [] []
| P_last d : 1 <= zlen d <= 16384 -> parcels d [d]
| P_full f d fs : zlen f = 16384 -> d <> [] -> parcels d fs -> parcels (f ++ d) (f :: fs).
(** [life ks ivs kc ivc q buf k pend bs j l out]: the application [q] gets the answers [l] and makes the client send [out], when [buf]
    was received before and not yet read, [pend] is a started handshake message, [bs] are the bytes to come, under the server's numbers from [k], and [j] is
    the client's next number *)
Inductive life (ks ivs kc ivc : bytes) : application -> bytes -> Z -> bytes -> bytes -> Z -> list answer -> bytes -> Prop :=
| L_quit buf k pend bs j : life ks ivs kc ivc Quit buf k pend bs j [] []
| L_read n next buf k pend bs j d buf' k' pend' bs' l out : filling ks ivs n buf k pend bs (Ok d) buf' k' pend' bs' ->
    life ks ivs kc ivc (next (Got (Ok d))) buf' k' pend' bs' j l out -> life ks ivs kc ivc (Do (Read n) next) buf k pend bs j (Got (Ok d) :: l) out
| L_panic n next buf k pend bs j buf' k' pend' bs' : filling ks ivs n buf k pend bs Panic buf' k' pend' bs' ->
    life ks ivs kc ivc (Do (Read n) next) buf k pend bs j [Got Panic] []
| L_write d next buf k pend bs j fs l out : parcels d fs -> life ks ivs kc ivc (next (Wrote (Ok (zlen d)))) buf k pend bs (j + zlen fs) l out ->
    life ks ivs kc ivc (Do (Write d) next) buf k pend bs j (Wrote (Ok (zlen d)) :: l) (sealed_stream kc ivc j ApplicationDataTy fs ++ out)
| L_close next buf k pend bs j l out : life ks ivs kc ivc (next (Closed (Ok tt))) buf k pend bs (j + 1) l out ->
    life ks ivs kc ivc (Do Close next) buf k pend bs j (Closed (Ok tt) :: l) (sealed_record kc ivc j AlertTy [x02; x00] ++ out).
(** the same of a connection *)
Definition living (ss : session) := life (k_server (s_keys ss)) (iv_server (s_keys ss)) (k_client (s_keys ss)) (iv_client (s_keys ss)).
Definition pours (ss : session) := filling (k_server (s_keys ss)) (iv_server (s_keys ss)).
Definition utters (ss : session) := sealed_record (k_client (s_keys ss)) (iv_client (s_keys ss)).
(** with construction before it: refused, and all that was sent; or led to its end *)
Inductive lifetime (m : mode) (g : rng) (q : application) (bs : bytes) : res unit -> list answer -> bytes -> Prop :=
| Life_refused x st : x <> Ok tt -> building m g bs x st -> lifetime m g q bs x [] (all_sent x st)
| Life_led ss n extra rest l out : connecting m g ss bs n extra rest -> living ss q [] n extra rest 1 l out ->
    lifetime m g q bs (Ok tt) l (stage_out (Complete ss) ++ out).
(** an upper bound of the number of records sent *)
Fixpoint spent (q : application) (l : list answer) : Z :=
  match q, l with Do o next, a :: l' => call_cost o + spent (next a) l' | _, _ => 0 end.

(** the example program: what it comes to, what it shows and what it sends *)
Inductive showing (m : mode) (g : rng) (bs : bytes) : res unit -> option bytes -> bytes -> Prop :=
| X_refused y st : y <> Ok tt -> building m g bs y st -> showing m g bs Panic None (all_sent y st)
| X_panic ss n extra rest buf k pend bs' : connecting m g ss bs n extra rest -> pours ss (Z.to_nat 4096) [] n extra rest Panic buf k pend bs' ->
    showing m g bs Panic None (stage_out (Complete ss) ++ utters ss 1 ApplicationDataTy head_request)
| X_shown ss n extra rest d buf k pend bs' : connecting m g ss bs n extra rest -> pours ss (Z.to_nat 4096) [] n extra rest (Ok d) buf k pend bs' ->
    showing m g bs (Ok tt) (Some (padded (Z.to_nat 4096) d)) (stage_out (Complete ss) ++ utters ss 1 ApplicationDataTy head_request ++ utters ss 2 AlertTy [x02; x00]).
