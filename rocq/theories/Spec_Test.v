(** What the crate's own record tests check, for all data. *)
From Verif Require Import Spec_Record.

(** [ps] is the data cut after every [n] bytes, the last piece being what is left *)
Inductive cut_every (n : nat) : bytes -> list bytes -> Prop :=
| Cut_none : cut_every n [] []
| Cut_last d : (1 <= length d <= n)%nat -> cut_every n d [d]
| Cut_more p d ps : length p = n -> d <> [] -> cut_every n d ps -> cut_every n (p ++ d) (p :: ps).

(** writer and reader agree on keys, number and IV, whatever the IV is: the record tests install none *)
Definition agreed_any_iv (w : writer) (r : reader) : Prop :=
  w_count w = r_count r /\ 0 <= w_count w /\ w_iv w = r_iv r /\ r_buf r = [] /\
  match w_enc w, r_dec r with
  | None, None => True
  | Some e, Some d => opens e d /\ 0 <= dc_mac_len d <= 2048
  | _, _ => False
  end.
