(** Programs that use the whole public interface, in conversation with a server that answers what it has seen. *)
From Verif Require Export Spec_Talk Spec_Api.

(** a program: its next call, and how it goes on depending on the answer *)
Inductive program := Finish | Call (o : api) (next : res value -> program).
Definition stops (x : res value) : bool := match x with Panic | Diverge => true | _ => false end.
(** [None]: some call is waiting *)
Fixpoint execute (m : mode) (q : program) (c : client) : option (list (res value)) * client :=
  match q with
  | Finish => (Some [], c)
  | Call o next =>
      let (a, c1) := do_api m o c in
      if starved c1 then (None, c1)
      else if stops a then (Some [a], c1)
      else let (l, c2) := execute m (next a) c1 in (option_map (cons a) l, c2)
  end.
(** how far: waiting; construction failed; the program ended after these answers *)
Inductive stage_of := Pending | Refused (x : res unit) | Over (l : list (res value)).
Definition engage (m : mode) (q : program) (p : list wevent) (g : rng) (s : src) : stage_of * client :=
  let (x, c) := client_new m s p g in
  if starved c then (Pending, c)
  else match x with
       | Ok tt => let (o, c') := execute m q c in (match o with None => Pending | Some l => Over l end, c')
       | _ => (Refused x, c)
       end.
(** after the bytes [r] *)
Definition at_stage m q p g r : stage_of := fst (engage m q p g (feed r)).
Definition put_out m q p g r : bytes := w_out (c_writer (snd (engage m q p g (feed r)))).
(** the calls a program makes if it gets the answers [l] *)
Fixpoint made (q : program) (l : list (res value)) : list api :=
  match q with
  | Finish => []
  | Call o next => match l with [] => [] | a :: l' => o :: made (next a) l' end
  end.

(** the applications of [Spec_Talk.v] are programs *)
Definition api_of (o : call) : api := match o with Read n => A_read n | Write buf => A_write buf | Close => A_close end.
Definition lift {A B} (f : A -> option B) (x : res A) : res B :=
  match x with Ok a => match f a with Some b => Ok b | None => Panic end | Err k => Err k | Panic => Panic | Diverge => Diverge end.
Definition back (o : call) (x : res value) : answer :=
  match o with
  | Read _ => Got (lift (fun v => match v with V_bytes b => Some b | _ => None end) x)
  | Write _ => Wrote (lift (fun v => match v with V_count n => Some n | _ => None end) x)
  | Close => Closed (lift (fun v => match v with V_done => Some tt | _ => None end) x)
  end.
Fixpoint embed (q : application) : program :=
  match q with Quit => Finish | Do o next => Call (api_of o) (fun x => embed (next (back o x))) end.
(** their answers *)
Fixpoint told (q : application) (l : list (res value)) : list answer :=
  match q with
  | Quit => []
  | Do o next => match l with [] => [] | x :: l' => back o x :: told (next (back o x)) l' end
  end.
