(** C101: what an observer sees of the client's records. *)
From Verif Require Export Spec_Any.
Local Open Scope list_scope.
Local Open Scope Z_scope.

(** a stream of records seen from outside: types and lengths *)
Inductive headers : bytes -> list (content_type * Z) -> Prop :=
| Hd_nil : headers [] []
| Hd_record t f bs l : zlen f <= 18432 -> headers bs l -> headers (wire t x03 x03 f ++ bs) ((t, zlen f) :: l).
(** [n] bytes in parts of 16384 and a rest *)
Definition cuts (n : Z) : list Z := if n <=? 0 then [] else repeat 16384 (Z.to_nat ((n - 1) / 16384)) ++ [(n - 1) mod 16384 + 1].
(** the records of a call, and of an application that makes its calls according to the answers; 16 bytes are added to each *)
Definition call_shape (o : call) : list (content_type * Z) :=
  match o with
  | Read _ => []
  | Write d => map (fun n => (ApplicationDataTy, n + 16)) (cuts (zlen d))
  | Close => [(AlertTy, 18)]
  end.
Fixpoint use_shape (q : application) (l : list answer) : list (content_type * Z) :=
  match q, l with Do o next, a :: l' => call_shape o ++ use_shape (next a) l' | _, _ => [] end.
(** ClientHello; ClientKeyExchange, ChangeCipherSpec, Finished *)
Definition opening : list (content_type * Z) := [(HandshakeTy, 69); (HandshakeTy, 70); (ChangeCipherSpecTy, 1); (HandshakeTy, 32)].
(** how much data there is *)
Definition data_seen (l : list (content_type * Z)) : Z := fold_right (fun x n => match fst x with ApplicationDataTy => snd x - 16 + n | _ => n end) 0 l.
Fixpoint data_sent (q : application) (l : list answer) : Z :=
  match q, l with Do o next, a :: l' => (match o with Write d => zlen d | _ => 0 end) + data_sent (next a) l' | _, _ => 0 end.
(** an application *)
Definition loud : application := Do (Write [x61; x62; x63]) (fun _ => Do Close (fun _ => Quit)).
