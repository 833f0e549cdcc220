(** Model of src/util.rs. *)
From Verif Require Export Base.

(** ** Host byte order (src/util.rs:43-57, 60-77, 113-146, 158-184)

    The helpers combine [mem::transmute] (bytes of a value in host order) with [to_be]/[to_le]
    (byte swap when the host order differs).  Both host orders are modelled; the rest of the
    model uses [be]/[le] directly, which [P_Util.v] proves equal for both hosts. *)
(** the target of the build, which selects [to_be]/[to_le] at src/util.rs:43-77, 113-184 *)
Inductive host := LittleHost | BigHost.

(** bytes of a [w]-byte integer in host memory: [mem::transmute::<uN, [u8; w]>], src/util.rs:43-77 *)
Definition to_mem (h : host) (w : nat) (x : Z) : bytes :=
  match h with LittleHost => le w x | BigHost => be w x end.

(** [mem::transmute::<[u8; w], uN>], src/util.rs:113-148 *)
Definition of_mem (h : host) (bs : bytes) : Z :=
  match h with LittleHost => le_val bs | BigHost => be_val bs end.

(** [uN::swap_bytes], inside [to_be]/[to_le] *)
Definition swap_bytes (w : nat) (x : Z) : Z := be_val (le w x).

(** [uN::to_be], src/util.rs:43-77, 113-184 *)
Definition to_be (h : host) (w : nat) (x : Z) : Z :=
  match h with LittleHost => swap_bytes w x | BigHost => x end.
(** [uN::to_le], src/util.rs:43-77, 113-184 *)
Definition to_le (h : host) (w : nat) (x : Z) : Z :=
  match h with LittleHost => x | BigHost => swap_bytes w x end.

(** src/util.rs:43-57 [u64_be_array], [u64_le_array], [u32_be_array], [u32_le_array] *)
Definition u64_be_array (h : host) (x : Z) : bytes := to_mem h 8 (to_be h 8 x).
(** src/util.rs:47-49 *)
Definition u64_le_array (h : host) (x : Z) : bytes := to_mem h 8 (to_le h 8 x).
(** src/util.rs:51-53 *)
Definition u32_be_array (h : host) (x : Z) : bytes := to_mem h 4 (to_be h 4 x).
(** src/util.rs:55-57 *)
Definition u32_le_array (h : host) (x : Z) : bytes := to_mem h 4 (to_le h 4 x).

(** src/util.rs:158-184 [write_be_uN], [write_le_uN] through 70-74 (the bytes handed to [write_all]) *)
Definition write_be (h : host) (w : nat) (x : Z) : bytes := to_mem h w (to_be h w x).
(** src/util.rs:164-166, 173-175, 182-184 [write_le_uN] *)
Definition write_le (h : host) (w : nat) (x : Z) : bytes := to_mem h w (to_le h w x).

(** src/util.rs:113-146 [read_be_uN], [read_le_uN] through 63-68 (value computed from the [w] bytes read) *)
Definition read_be (h : host) (w : nat) (bs : bytes) : Z := to_be h w (of_mem h bs).
(** src/util.rs:125-128, 135-138, 145-148 [read_le_uN] *)
Definition read_le (h : host) (w : nat) (bs : bytes) : Z := to_le h w (of_mem h bs).

(** ** [crypto_compare] (src/util.rs:29-41) *)

(** src/util.rs:32-34: the loop [for i in 0..a.len() { diff |= a[i] ^ b[i]; }]; indexing [b] past its end panics *)
Fixpoint compare_loop (diff : Z) (a b : bytes) : res Z :=
  match a with
  | [] => Ok diff
  | x :: a' =>
      match b with
      | [] => Panic
      | y :: b' => compare_loop (Z.lor diff (Z.lxor (b2z x) (b2z y))) a' b'
      end
  end.

(** src/util.rs:29-41 *)
Definition crypto_compare (m : mode) (a b : bytes) : res bool :=
  let* _ := dassert m (Nat.eqb (length a) (length b)) in
  let* diff := compare_loop 0 a b in
  let diff := Z.lor diff (Z.shiftr diff 4) in
  let diff := Z.lor diff (Z.shiftr diff 2) in
  let diff := Z.lor diff (Z.shiftr diff 1) in
  let diff := Z.land diff 1 in
  Ok (diff =? 0).

(** ** Transport input *)

(** The outcome of successive [Read::read] calls (made at src/util.rs:88-105).  [RData []] is a read returning 0, [RErr] an error
    of any kind (the crate does not retry [Interrupted]).  After the last event every read returns 0.
    A piece larger than the caller's buffer is consumed in several calls. *)
Inductive revent := RData (bs : bytes) | RErr.
Notation src := (list revent).

(** src/util.rs:88-105 [fill_exact], and 107-112 [read_exact] (the buffer is [n] bytes).
    The bytes already copied when an error occurs are lost with the buffer; the source keeps what
    was not consumed. *)
Fixpoint fill_exact (s : src) (n : nat) : res bytes * src :=
  match n with
  | O => (Ok [], s)
  | S _ =>
      match s with
      | [] => (Err IoFailure, [])
      | RErr :: r => (Err IoFailure, r)
      | RData [] :: r => (Err IoFailure, r)
      | RData bs :: r =>
          if (length bs <=? n)%nat then
            match fill_exact r (n - length bs) with
            | (Ok got, s') => (Ok (bs ++ got), s')
            | (e, s') => (e, s')
            end
          else (Ok (firstn n bs), RData (skipn n bs) :: r)
      end
  end.
