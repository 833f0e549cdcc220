(** The two builds of the crate side by side: what can be seen of a client from outside, everything except the two
    cipher objects (which are functions and differ between builds as functions do). *)
From Verif Require Export Spec_Api M_Std.

Definition seen_reader (r : reader) := (r_src r, r_count r, r_buf r, r_iv r).
Definition seen_writer (w : writer) := (w_out w, w_plan w, w_count w, w_iv w, w_log w).
Definition seen (c : client) := (seen_reader (c_reader c), seen_writer (c_writer c), c_rng c, c_buf c).

(** a record counter stands at its last value *)
Definition run_out (c : client) : Prop := w_count (c_writer c) = 2 ^ 64 - 1 \/ r_count (c_reader c) = 2 ^ 64 - 1.
