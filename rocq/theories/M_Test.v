(** The crate's own record tests, src/test.rs.  A test returns [Ok tt] if it passes and [Panic] if an assertion or an
    [unwrap] fails. *)
From Verif Require Export M_Record.

(** src/test.rs:13, 16-20 [NullEncryptor] *)
Definition null_encryptor : encryptor := fun _ plain _ => Ok plain.
(** src/test.rs:14, 22-29 [NullDecryptor] *)
Definition null_decryptor : decryptor := Decryptor (fun _ encrypted _ => Ok encrypted) 0.
(** src/test.rs:31-41 [null_tls]: the reader; no IV is installed *)
Definition null_reader (s : src) : res reader :=
  match r_set_decryptor null_decryptor (reader_new s) with (Ok _, r) => Ok r | _ => Panic end.
(** src/test.rs:31-41 [null_tls]: the writer, on a [Vec] (which accepts everything) *)
Definition null_writer : res writer :=
  match w_set_encryptor null_encryptor (writer_new []) with (Ok _, w) => Ok w | _ => Panic end.
(** [Cursor::new(data)] as a source (src/test.rs:56, 83) *)
Definition cursor (data : bytes) : src := match data with [] => [] | _ => [RData data] end.
(** [assert!], [panic!] in src/test.rs *)
Definition test_assert (c : bool) : res unit := if c then Ok tt else Panic.
(** [.unwrap()] in src/test.rs *)
Definition unwrap {A} (r : res A) : res A := match r with Err _ => Panic | _ => r end.

(** src/test.rs:43-66 *)
Definition test_change_cipher_spec_message (m : mode) : res unit :=
  let* w := null_writer in
  let (x, w) := write_change_cipher_spec m w in
  let* _ := unwrap x in
  let data := w_out w in
  let* _ := test_assert (zlen data =? 1 + 2 + 2 + 1) in
  let* _ := test_assert (b2z (nth 5 data x00) =? 1) in
  let* r := null_reader (cursor data) in
  let* msg := unwrap (fst (read_message m r)) in
  match msg with ChangeCipherSpecMessage => Ok tt | _ => Panic end.

(** comparison of byte strings, [assert_eq!] at src/test.rs:90, 97 *)
Definition same_bytes (a b : bytes) : bool :=
  if list_eq_dec byte_eq_dec a b then true else false.
(** src/test.rs:68-102, for any data and any two pieces *)
Definition application_test (m : mode) (app_data first second : bytes) : res unit :=
  let* w := null_writer in
  let (x, w) := write_application_data m app_data w in
  let* _ := unwrap x in
  let* r := null_reader (cursor (w_out w)) in
  let (x, r) := read_message m r in
  let* msg := unwrap x in
  let* _ := match msg with ApplicationDataMessage d => test_assert (same_bytes d first) | _ => Panic end in
  let (x, r) := read_message m r in
  let* msg := unwrap x in
  match msg with ApplicationDataMessage d => test_assert (same_bytes d second) | _ => Panic end.
(** src/test.rs:68-102 *)
Definition test_application_message (m : mode) : res unit :=
  application_test m (repeat x01 (Z.to_nat (RECORD_MAX_LEN + 200))) (repeat x01 (Z.to_nat RECORD_MAX_LEN)) (repeat x01 200).
