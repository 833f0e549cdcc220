(** Model of the ways an application uses [TlsClient]: the default methods of [std::io::Read] on top of [read]
    (src/client.rs:323-350), [from_tcp] (src/client.rs:274-286) and the program examples/cloudflare.rs.

    [std] itself is not in /repo; its documented loops are what is modelled here. *)
From Verif Require Export M_Client.

(** the two outcomes of [std::io::Read::read_exact]; the bytes stored so far are kept in both *)
Inductive exact := Filled (b : bytes) | UnexpectedEof (b : bytes).
(** [std::io::Read::read_exact] (not overridden by the impl at src/client.rs:323-350): calls [read] on the rest of the
    buffer until it is full or [read] stores nothing.  The retry on [Interrupted] is left out, as [read] never
    returns an error.  Each turn stores a byte, so the length of the buffer is enough fuel (proved in [P_Std.v]). *)
Fixpoint read_exact_loop (m : mode) (fuel n : nat) (done : bytes) : M client exact :=
  if (length done <? n)%nat then
    match fuel with
    | O => mfail Diverge
    | S f =>
        do* d := client_read m (n - length done) in
        match d with
        | [] => mret (UnexpectedEof done)
        | _ => read_exact_loop m f n (done ++ d)
        end
    end
  else mret (Filled done).
(** [std::io::Read::read_exact] with a buffer of [n] bytes, see above *)
Definition read_exact (m : mode) (n : nat) : M client exact := read_exact_loop m n n [].

(** [std::io::Read::read_to_end] (not overridden by the impl at src/client.rs:323-350): calls [read] with some room
    until it stores nothing.  How much room there is each time depends on the version of [std] and on the
    capacity of the vector: [S (sz i)] bytes in the [i]th call, for any [sz].  The loop has no bound of its own,
    hence a relation. *)
Inductive to_end (m : mode) (sz : nat -> nat) : nat -> bytes -> client -> res bytes -> client -> Prop :=
| To_stop i done c c' : client_read m (S (sz i)) c = (Ok [], c') -> to_end m sz i done c (Ok done) c'
| To_more i done c b d c1 x c' : client_read m (S (sz i)) c = (Ok (b :: d), c1) ->
    to_end m sz (S i) (done ++ b :: d) c1 x c' -> to_end m sz i done c x c'
| To_err i done c k c' : client_read m (S (sz i)) c = (Err k, c') -> to_end m sz i done c (Err k) c'
| To_panic i done c c' : client_read m (S (sz i)) c = (Panic, c') -> to_end m sz i done c Panic c'
| To_diverge i done c c' : client_read m (S (sz i)) c = (Diverge, c') -> to_end m sz i done c Diverge c'.

(** src/client.rs:274-286 [from_tcp]; [cloned]: whether [try_clone] succeeds.  The two directions of the socket are
    the source [s] and the write events [p]; [OsRng] is the tape [g].  If the clone fails there is no client
    and nothing is sent. *)
Definition from_tcp (m : mode) (cloned : bool) (s : src) (p : list wevent) (g : rng) : res unit * client :=
  if cloned then client_new m s p g else (Err IoFailure, client_init s p g).

(** [Result::unwrap], as used in examples/cloudflare.rs:8-18 *)
Definition unwrap {A} (x : res A * client) : res A * client := match x with (Err _, c) => (Panic, c) | _ => x end.
(** examples/cloudflare.rs:10 *)
Definition request : bytes :=
  [x48; x45; x41; x44; x20; x2f; x20; x48; x54; x54; x50; x2f; x31; x2e; x31; x0d; x0a; x48; x6f; x73; x74; x3a; x20;
   x77; x77; x77; x2e; x63; x6c; x6f; x75; x64; x66; x6c; x61; x72; x65; x2e; x63; x6f; x6d; x0d; x0a; x43; x6f; x6e;
   x6e; x65; x63; x74; x69; x6f; x6e; x3a; x20; x63; x6c; x6f; x73; x65; x0d; x0a; x0d; x0a].
(** examples/cloudflare.rs:6-19 [main], after the TCP connection of line 7 is there.  The second component is
    what is shown by line 16 (before the lossy conversion to text in line 15): the whole buffer of 4096 bytes,
    as the number of bytes read is dropped in line 14. *)
Definition example (m : mode) (cloned : bool) (s : src) (p : list wevent) (g : rng) : res unit * option bytes * client :=
  match unwrap (from_tcp m cloned s p g) with
  | (Ok _, c0) =>
      match unwrap (client_write m request c0) with
      | (Ok _, c1) =>
          match unwrap (client_read m (Z.to_nat 4096) c1) with
          | (Ok d, c2) => let (x, c3) := unwrap (client_close m c2) in (x, Some (d ++ repeat x00 (Z.to_nat 4096 - length d)), c3)
          | (Err k, c2) => (Err k, None, c2)
          | (Panic, c2) => (Panic, None, c2)
          | (Diverge, c2) => (Diverge, None, c2)
          end
      | (Err k, c1) => (Err k, None, c1)
      | (Panic, c1) => (Panic, None, c1)
      | (Diverge, c1) => (Diverge, None, c1)
      end
  | (Err k, c0) => (Err k, None, c0)
  | (Panic, c0) => (Panic, None, c0)
  | (Diverge, c0) => (Diverge, None, c0)
  end.
