(** C96: transports that may fail at any read and at any write. *)
From Verif Require Export Spec_Broken.
Local Open Scope list_scope.
Local Open Scope Z_scope.

(** ** What arrives *)
(** slices handed to the transport one after the other, up to the first failure: was there none, what was taken, and how the transport will
    behave from then on *)
Fixpoint given_out (p : list wevent) (l : list bytes) : bool * bytes * list wevent :=
  match l with
  | [] => (true, [], p)
  | [] :: l' => given_out p l'
  | s :: l' =>
      match p with
      | WFail k :: p' => (false, firstn k s, p')
      | WOk :: p' => let '(ok, out, q) := given_out p' l' in (ok, s ++ out, q)
      | [] => let '(ok, out, q) := given_out [] l' in (ok, s ++ out, q)
      end
  end.
(** the slices of a stream of records: of each the type, the two bytes of the version, the length and the contents *)
Inductive sliced : bytes -> list bytes -> Prop :=
| Sl_nil : sliced [] []
| Sl_record t maj min f bs l : zlen f <= 18432 -> sliced bs l ->
    sliced (wire t maj min f ++ bs) ([z2b (rfc_content_type t)] :: [maj] :: [min] :: be 2 (zlen f) :: f :: l).
Definition delivery (p : list wevent) (bs : bytes) (ok : bool) (out : bytes) (p' : list wevent) : Prop :=
  exists l, sliced bs l /\ given_out p l = (ok, out, p').
(** fragments sealed and sent from number [j] on; only a record that was sent whole has used up its number *)
Inductive dispatch (key iv : bytes) (t : content_type) : list bytes -> Z -> list wevent -> bool -> bytes -> Z -> list wevent -> Prop :=
| Di_none j p : dispatch key iv t [] j p true [] j p
| Di_sent f fs j p out1 p1 ok out j' p' : delivery p (sealed_record key iv j t f) true out1 p1 -> dispatch key iv t fs (j + 1) p1 ok out j' p' ->
    dispatch key iv t (f :: fs) j p ok (out1 ++ out) j' p'
| Di_cut f fs j p out p' : delivery p (sealed_record key iv j t f) false out p' -> dispatch key iv t (f :: fs) j p false out j p'.
Definition provided {A} (ok : bool) (x : res A) : res A := if ok then x else Err IoFailure.

(** ** What happens *)
(** construction: the transport fails while a flight is sent; or nothing more is sent; or the alert is, as far as the transport takes it *)
Inductive venture (m : mode) (g : rng) (b : bytes) (p : list wevent) : res unit -> bytes -> Prop :=
| V_cut x st out p' : building m g b x st -> delivery p (stage_out st) false out p' -> venture m g b p (Err IoFailure) out
| V_quiet x st out p' : building m g b x st -> (forall e, x = Err e -> e = IoFailure) -> delivery p (stage_out st) true out p' -> venture m g b p x out
| V_alert e st out1 p1 ok out2 p2 : building m g b (Err e) st -> e <> IoFailure -> delivery p (stage_out st) true out1 p1 ->
    delivery p1 (signal st e) ok out2 p2 -> venture m g b p (provided ok (Err e)) (out1 ++ out2).
(** [career] with a transport that may fail at every write *)
Inductive fortune (ks ivs kc ivc : bytes) : application -> bytes -> Z -> bytes -> list bytes -> Z -> list wevent -> list answer -> bytes -> Prop :=
| F_quit buf k pend bs j p : fortune ks ivs kc ivc Quit buf k pend bs j p [] []
| F_read n next buf k pend bs j p d buf' k' pend' bs' l out : hauls ks ivs n buf k pend bs (Ok d) buf' k' pend' bs' ->
    fortune ks ivs kc ivc (next (Got (Ok d))) buf' k' pend' bs' j p l out -> fortune ks ivs kc ivc (Do (Read n) next) buf k pend bs j p (Got (Ok d) :: l) out
| F_panic n next buf k pend bs j p buf' k' pend' bs' : hauls ks ivs n buf k pend bs Panic buf' k' pend' bs' ->
    fortune ks ivs kc ivc (Do (Read n) next) buf k pend bs j p [Got Panic] []
| F_write d next buf k pend bs j p fs ok out1 j1 p1 l out : parcels d fs -> dispatch kc ivc ApplicationDataTy fs j p ok out1 j1 p1 ->
    fortune ks ivs kc ivc (next (Wrote (provided ok (Ok (zlen d))))) buf k pend bs j1 p1 l out ->
    fortune ks ivs kc ivc (Do (Write d) next) buf k pend bs j p (Wrote (provided ok (Ok (zlen d))) :: l) (out1 ++ out)
| F_close next buf k pend bs j p ok out1 j1 p1 l out : dispatch kc ivc AlertTy [[x02; x00]] j p ok out1 j1 p1 ->
    fortune ks ivs kc ivc (next (Closed (provided ok (Ok tt)))) buf k pend bs j1 p1 l out ->
    fortune ks ivs kc ivc (Do Close next) buf k pend bs j p (Closed (provided ok (Ok tt)) :: l) (out1 ++ out).
(** the whole session *)
Inductive fate (m : mode) (g : rng) (q : application) : list bytes -> list wevent -> res unit -> list answer -> bytes -> Prop :=
| Fate_refused b more p x out : x <> Ok tt -> venture m g b p x out -> fate m g q (b :: more) p x [] out
| Fate_led ss b more p out1 p1 n extra rest l out : connecting m g ss b n extra rest -> delivery p (stage_out (Complete ss)) true out1 p1 ->
    fortune (k_server (s_keys ss)) (iv_server (s_keys ss)) (k_client (s_keys ss)) (iv_client (s_keys ss)) q [] n extra (rest :: more) 1 p1 l out ->
    fate m g q (b :: more) p (Ok tt) l (out1 ++ out).

(** ** The example program *)
(** its calls *)
Definition example_calls : application :=
  Do (Write head_request) (fun a => match a with
    | Wrote (Ok _) => Do (Read (Z.to_nat 4096)) (fun b => match b with Got (Ok _) => Do Close (fun _ => Quit) | _ => Quit end)
    | _ => Quit
    end).
(** how it ends and what it shows, by the outcome of construction and the answers: any error ends it at once, as a panic *)
Definition told (x : res unit) (l : list answer) : res unit * option bytes :=
  match x, l with
  | Ok _, [Wrote (Ok _); Got (Ok d); Closed (Ok _)] => (Ok tt, Some (padded (Z.to_nat 4096) d))
  | Ok _, [Wrote (Ok _); Got (Ok d); Closed _] => (Panic, Some (padded (Z.to_nat 4096) d))
  | _, _ => (Panic, None)
  end.
