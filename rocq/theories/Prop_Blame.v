(** C85: which reading calls of the public interface can panic, and on what. *)
From Verif Require Import Spec_Blame P_Blame.
Local Open Scope list_scope.
Local Open Scope Z_scope.

(** a panicking read has a record sealed with the server's key behind it: an over-long one, or, if application data was asked for,
    one of another type, unless a message was left over from the handshake *)
Theorem C85_reading_panics : forall m s p g c l, zlen (all_bytes s) + 1 < 2 ^ 64 -> client_new m s p g = (Ok tt, c) ->
  exists ss, reached m s g (Complete ss) /\ let key := k_server (s_keys ss) in let iv := iv_server (s_keys ss) in
  forall i o, Forall (fun o => side_of o = Reading -> rekeys o = false) l ->
    nth_error l i = Some o -> side_of o = Reading -> nth_error (fst (api_run m l c)) i = Some Panic ->
    overlong_in (r_src (c_reader c)) key iv \/
    (wants_data o = true /\ (other_in (r_src (c_reader c)) key iv \/ ~ no_pending (c_reader c))).
Proof. exact reading_panics. Qed.
Print Assumptions C85_reading_panics.
Example ex_blame : let l := [A_raw_read 3; A_reader R_message; A_write [x61]; A_reader R_application; A_writer (OpSetIv []); A_read 7] in
  Forall (fun o => side_of o = Reading -> rekeys o = false) l /\ map wants_data l = [false; false; false; true; false; true].
Proof. split; [|reflexivity]. repeat constructor; discriminate. Qed.

(** an over-long record at the front makes every method panic *)
Theorem C85_overlong : forall m r key iv k t f rest o, keyed m r key iv k -> no_pending r -> k + 1 < 2 ^ 64 -> 16384 < zlen f <= 16384 + 2048 - 16 ->
  stream (r_src r) = sealed_record key iv k t f ++ rest -> fetches o = true -> fst (do_rop m o r) = Panic.
Proof. exact overlong_panics. Qed.
Print Assumptions C85_overlong.
Example ex_overlong : forall m t, exists s g ss c f, client_new m s [] g = (Ok tt, c) /\ reached m s g (Complete ss) /\ no_pending (c_reader c) /\
  stream (r_src (c_reader c)) = sealed_record (k_server (s_keys ss)) (iv_server (s_keys ss)) 1 t f /\ zlen f = 16385 /\
  Forall (fun o => fst (api_run m [A_reader o] c) = [Panic]) [R_message; R_application; R_handshake; R_ccs].
Proof. exact overlong_connection. Qed.
(** alerts, ChangeCipherSpec and handshake messages make [read_application_data] panic *)
Theorem C85_other : forall m r key iv k bs rest, keyed m r key iv k -> r_buf r = [] -> k + 1 < 2 ^ 64 -> crashing key iv k bs ->
  stream (r_src r) = bs ++ rest -> fst (do_rop m R_application r) = Panic.
Proof. exact crashes_method. Qed.
Print Assumptions C85_other.
(** the same alert: a panic for one method, an answer or an error for the others *)
Example ex_other : forall m, exists s g c, client_new m s [] g = (Ok tt, c) /\ no_pending (c_reader c) /\
  fst (api_run m [A_reader R_application] c) = [Panic] /\
  fst (api_run m [A_reader R_message] c) = [Ok (V_message (AlertMessage (Alert AL_fatal AD_internal_error)))] /\
  fst (api_run m [A_reader R_handshake] c) = [Err AlertReceived] /\ fst (api_run m [A_reader R_ccs] c) = [Err UnexpectedMessage].
Proof. exact alert_connection. Qed.
