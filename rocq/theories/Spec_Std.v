(** Specification vocabulary for the uses of the client in [M_Std.v]. *)
From Verif Require Export Spec_Client3 M_Std.
Import String.StringSyntax.
Local Open Scope string_scope.
Local Open Scope list_scope.
Local Open Scope Z_scope.

Definition crlf : bytes := [x0d; x0a].
(** the request of the example, as HTTP has it: a request line, two header fields, an empty line *)
Definition head_request : bytes :=
  ascii "HEAD / HTTP/1.1" ++ crlf ++ ascii "Host: www.cloudflare.com" ++ crlf ++ ascii "Connection: close" ++ crlf ++ crlf.
(** the beginning of [d], made [n] bytes long with zeros *)
Definition padded (n : nat) (d : bytes) : bytes := firstn n (d ++ repeat x00 n).
(** what a buffer of [n] bytes gets from a stream with [d] left *)
Definition exact_of (n : nat) (d : bytes) : exact := if (n <=? length d)%nat then Filled (firstn n d) else UnexpectedEof d.
Definition stored (x : exact) : bytes := match x with Filled b | UnexpectedEof b => b end.
(** some number of calls of [read] with nonempty buffers gave [b] *)
Definition gathered (m : mode) (c : client) (b : bytes) (c' : client) : Prop :=
  exists sizes outs, client_reads m sizes c = (map Ok outs, c') /\ concat outs = b /\ Forall (fun n => (0 < n)%nat) sizes.
(** what the outcomes of [read_exact] say: the buffer is full; or it is not, nothing is left over, and the record
    layer has just reported an error *)
Definition exact_means (m : mode) (n : nat) (e : exact) (c' : client) : Prop :=
  match e with
  | Filled b => length b = n
  | UnexpectedEof b => (length b < n)%nat /\ c_buf c' = [] /\ exists r k, read_application_data m r = (Err k, c_reader c')
  end.
