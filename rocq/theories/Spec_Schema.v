(** Types of the presentation language (RFC 5246 4), as the macros of src/tls_item.rs define them: a description of any such
    type, its values and the layout of its values. *)
From Verif Require Export Spec_Wire.
Local Open Scope list_scope.
Local Open Scope Z_scope.

Inductive schema : Type -> Type :=
| S_u8 : schema byte
| S_number (w : nat) : schema Z
| S_enum {A} (w : nat) (code : A -> Z) (variants : list A) : schema A
| S_array (n : nat) : schema bytes
| S_fields {A B} (s : schema A) (t : schema B) : schema (A * B)
| S_record {A B} (make : A -> B) (parts : B -> A) (s : schema A) : schema B
| S_tagged {A} (w : nat) (tag : Z) (s : schema A) : schema A
| S_vector {A} (s : schema A) (least most : Z) : schema (list A).

(** RFC 5246 4.3: the length takes as many bytes as the greatest length needs *)
Definition length_width (most : Z) : nat := Z.to_nat (Z.log2 most / 8 + 1).

(** RFC 5246 4.1-4.6 *)
Fixpoint layout {A} (s : schema A) : A -> bytes :=
  match s in schema A return A -> bytes with
  | S_u8 => fun b => [b]
  | S_number w => fun z => be w z
  | S_enum w code _ => fun a => be w (code a)
  | S_array _ => fun v => v
  | S_fields s t => fun p => layout s (fst p) ++ layout t (snd p)
  | S_record _ parts s => fun b => layout s (parts b)
  | S_tagged w tag s => fun a => be w tag ++ layout s a
  | S_vector s _ most => fun l => be (length_width most) (zlen (concat (map (layout s) l))) ++ concat (map (layout s) l)
  end.

(** the values of a type *)
Fixpoint belongs {A} (s : schema A) : A -> Prop :=
  match s in schema A return A -> Prop with
  | S_u8 => fun _ => True
  | S_number w => fun z => 0 <= z < 256 ^ Z.of_nat w
  | S_enum _ _ _ => fun _ => True
  | S_array n => fun v => length v = n
  | S_fields s t => fun p => belongs s (fst p) /\ belongs t (snd p)
  | S_record _ parts s => fun b => belongs s (parts b)
  | S_tagged _ _ s => fun a => belongs s a
  | S_vector s least most => fun l => Forall (belongs s) l /\ least <= zlen (concat (map (layout s) l)) <= most
  end.

(** all that the type system of the code guarantees of a value: arrays have their length *)
Fixpoint filled {A} (s : schema A) : A -> Prop :=
  match s in schema A return A -> Prop with
  | S_u8 => fun _ => True
  | S_number _ => fun _ => True
  | S_enum _ _ _ => fun _ => True
  | S_array n => fun v => length v = n
  | S_fields s t => fun p => filled s (fst p) /\ filled t (snd p)
  | S_record _ parts s => fun b => filled s (parts b)
  | S_tagged _ _ s => fun a => filled s a
  | S_vector s _ _ => fun l => Forall (filled s) l
  end.

(** no value of the type takes fewer bytes *)
Fixpoint smallest {A} (s : schema A) : Z :=
  match s with
  | S_u8 => 1
  | S_number w => Z.of_nat w
  | S_enum w _ _ => Z.of_nat w
  | S_array n => Z.of_nat n
  | S_fields s t => smallest s + smallest t
  | S_record _ _ s => smallest s
  | S_tagged w _ s => Z.of_nat w + smallest s
  | S_vector _ _ most => Z.of_nat (length_width most)
  end.

(** definitions that make sense: the codes of an enumeration fit and differ, a record is its parts, a tag fits, the length of a
    vector fits 32 bits, and the elements of a vector are not empty *)
Fixpoint sensible {A} (s : schema A) : Prop :=
  match s with
  | S_u8 | S_number _ | S_array _ => True
  | S_enum w code variants => (forall a, In a variants) /\ (forall a b, code a = code b -> a = b) /\ forall a, 0 <= code a < 256 ^ Z.of_nat w
  | S_fields s t => sensible s /\ sensible t
  | S_record make parts s => (forall b, make (parts b) = b) /\ (forall a, parts (make a) = a) /\ sensible s
  | S_tagged w tag s => 0 <= tag < 256 ^ Z.of_nat w /\ sensible s
  | S_vector s least most => 0 <= most < 2 ^ 32 /\ 1 <= smallest s /\ sensible s
  end.

(** the item the macros make of it: [tls_primitive!], [tls_enum!], [tls_array!], [tls_struct!], [tls_vec!] (src/tls_item.rs:27-316), and
    [tls_enum_struct!] with one variant (src/cipher/ecdhe.rs:37-102) *)
Fixpoint item_of {A} (s : schema A) : item A :=
  match s with
  | S_u8 => i_u8
  | S_number w => i_num w
  | S_enum w code variants => i_enum w code variants
  | S_array n => i_array n
  | S_fields s t => i_pair (item_of s) (item_of t)
  | S_record make parts s => i_map make parts (item_of s)
  | S_tagged w tag s =>
      Item (fun a => let* b := tls_write (item_of s) a in Ok (wr_num w tag ++ b))
           (fun bs => let* (n, r) := rd_num w bs in if n =? tag then tls_read (item_of s) r else Err DecodeError)
           (fun a => Z.of_nat w + tls_size (item_of s) a)
  | S_vector s least most => i_vec (item_of s) least most
  end.

(** what is said of a type: all its values are written as laid out, with the size announced; exactly the layouts are read, in front of
    anything, as the values they come from; and reading always answers, and refuses with one of two errors *)
Definition exact_item {A} (s : schema A) : Prop :=
  (forall v, belongs s v -> tls_write (item_of s) v = Ok (layout s v) /\ tls_size (item_of s) v = zlen (layout s v)) /\
  (forall bs v rest, tls_read (item_of s) bs = Ok (v, rest) <-> belongs s v /\ bs = layout s v ++ rest) /\
  (forall bs, (exists v rest, tls_read (item_of s) bs = Ok (v, rest)) \/ tls_read (item_of s) bs = Err IoFailure \/ tls_read (item_of s) bs = Err DecodeError).

(** the types of the crate: src/alert.rs:6-71, src/signature.rs:6-29, src/handshake.rs:14-56, 305-326, src/cipher/ecdhe.rs:16-116 *)
Definition s_alert_level := S_enum 1 alert_level_code alert_level_all.
Definition s_alert_desc := S_enum 1 alert_desc_code alert_desc_all.
Definition s_alert := S_record (fun p => Alert (fst p) (snd p)) (fun a => (al_level a, al_desc a)) (S_fields s_alert_level s_alert_desc).
Definition s_hash_alg := S_enum 1 hash_alg_code hash_alg_all.
Definition s_sig_alg := S_enum 1 sig_alg_code sig_alg_all.
Definition s_sig_hash := S_record (fun p => SigHash (fst p) (snd p)) (fun a => (sh_hash a, sh_sig a)) (S_fields s_hash_alg s_sig_alg).
Definition s_sig_hash_vec := S_vector s_sig_hash 2 (2 ^ 16 - 2).
Definition s_signature := S_vector S_u8 0 (2 ^ 16 - 1).
Definition s_digitally_signed := S_record (fun p => DigSigned (fst p) (snd p)) (fun a => (ds_alg a, ds_sig a)) (S_fields s_sig_hash s_signature).
Definition s_random := S_array 32.
Definition s_compression := S_enum 1 compression_code compression_all.
Definition s_compression_vec := S_vector s_compression 1 (2 ^ 8 - 1).
Definition s_version := S_record (fun p => Version (fst p) (snd p)) (fun v => (v_major v, v_minor v)) (S_fields S_u8 S_u8).
Definition s_session_id := S_vector S_u8 0 32.
Definition s_asn1_cert := S_vector S_u8 1 (2 ^ 24 - 1).
Definition s_named_curve := S_enum 2 named_curve_code named_curve_all.
Definition s_curve_list := S_vector s_named_curve 1 (2 ^ 16 - 1).
Definition s_point_format := S_enum 1 point_format_code point_format_all.
Definition s_point_format_list := S_vector s_point_format 1 (2 ^ 8 - 1).
Definition s_certificate_list := S_vector s_asn1_cert 0 (2 ^ 24 - 1).
Definition s_cert_type := S_enum 1 cert_type_code cert_type_all.
Definition s_cert_type_vec := S_vector s_cert_type 1 (2 ^ 8 - 1).
Definition s_dn := S_vector S_u8 1 (2 ^ 16 - 1).
Definition s_dn_vec := S_vector s_dn 0 (2 ^ 16 - 1).
Definition s_verify_data := S_array 12.
Definition s_ec_data := S_vector S_u8 1 (2 ^ 8 - 1).
Definition s_ec_curve := S_record (fun p => EcCurve (fst p) (snd p)) (fun c => (ecc_a c, ecc_b c)) (S_fields s_ec_data s_ec_data).
Definition s_ec_parameters := S_tagged 1 3 s_named_curve.
Definition s_cert_request :=
  S_record (fun '(t, (a, c)) => CertRequest t a c) (fun r => (cr_types r, (cr_algs r, cr_cas r))) (S_fields s_cert_type_vec (S_fields s_sig_hash_vec s_dn_vec)).
Definition s_ske :=
  S_record (fun '((c, p), s) => Ske c p s) (fun k => ((ske_curve k, ske_public k), ske_signed k)) (S_fields (S_fields s_ec_parameters s_ec_data) s_digitally_signed).
