(** Specification vocabulary for C79: the same conversation without TLS, and a server that speaks TLS. *)
From Verif Require Export Spec_Talk.

(** ** Without TLS *)
(** the client's side of the pipe carries bytes and, for [close], a mark; the server's side carries bytes *)
Definition speech := list (option byte).
(** the application on a plain pipe on which [d] has arrived: [None] if a read waits for more bytes than there are;
    and what the application has said *)
Fixpoint plain (q : application) (d : bytes) : option (list answer) * speech :=
  match q with
  | Quit => (Some [], [])
  | Do (Read n) next =>
      if (n <=? length d)%nat then
        let a := Got (Ok (firstn n d)) in let (l, o) := plain (next a) (skipn n d) in (option_map (cons a) l, o)
      else (None, [])
  | Do (Write b) next => let a := Wrote (Ok (zlen b)) in let (l, o) := plain (next a) d in (option_map (cons a) l, map Some b ++ o)
  | Do Close next => let a := Closed (Ok tt) in let (l, o) := plain (next a) d in (option_map (cons a) l, None :: o)
  end.
Definition plain_state (q : application) (d : bytes) : progress := match fst (plain q d) with None => Waiting | Some l => Ended l end.
Definition said (q : application) (d : bytes) : speech := snd (plain q d).
(** the service: all it has sent, as a function of all that was said to it *)
Definition causal_service (sv : speech -> bytes) : Prop := forall a b, exists t, sv (a ++ b) = sv a ++ t.
Inductive plain_talk (service : speech -> bytes) (q : application) : bytes -> Prop :=
| Pt_start : plain_talk service q []
| Pt_more r x t : plain_talk service q r -> service (said q r) = r ++ x ++ t -> plain_talk service q (r ++ x).

(** ** With TLS *)
(** what the records of the client say *)
Definition says (it : list (content_type * bytes)) : speech :=
  concat (map (fun i => match fst i with ApplicationDataTy => map Some (snd i) | _ => [None] end) it).
Definition legal_item (i : content_type * bytes) : Prop :=
  fst i = ApplicationDataTy /\ legal_fragment (snd i) \/ i = (AlertTy, [x02; x00]).
(** a server with the parameters [sv] that follows RFC 5246 with this suite and offers [service]: it answers the ClientHello
    with its first flight, the client's second flight with its own, and from then on sends the service's answers to what the
    client's records say, in records as it likes *)
Definition tls_server (sv : server) (service : speech -> bytes) (srv : bytes -> bytes) : Prop :=
  causal_server srv /\ forall cr, length cr = 32%nat -> exists fs1 t, srv (flight_hello cr) = concat (map (e_record HandshakeTy) fs1) ++ t /\
    forall C ss, agreed sv cr C ss -> first_flight ss fs1 /\ exists fs2, second_flight ss fs2 /\
      forall it, Forall legal_item it -> 1 + zlen it < 2 ^ 64 ->
        exists fs, Forall (fun f => zlen f <= 16384) fs /\ zlen fs2 + zlen fs < 2 ^ 64 /\ concat fs = service (says it) /\
          srv (stage_out (Complete ss) ++ sealed_items (k_client (s_keys ss)) (iv_client (s_keys ss)) 1 it) =
          served ss fs1 fs2 ++ sealed_stream (k_server (s_keys ss)) (iv_server (s_keys ss)) (zlen fs2) ApplicationDataTy fs.
