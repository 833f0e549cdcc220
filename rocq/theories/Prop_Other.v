(** C108: the secret of every handshake that goes through, whatever point the server sent. *)
From Verif Require Import Spec_Other P_Limbs P_Fp P_P256X P_Scalar P_Decode256 P_Other P_Other2 P_Client4 P_Client5.
Local Open Scope list_scope.
Local Open Scope Z_scope.

(** the code's formulas are right on every smooth curve y^2 = x^3 - 3x + c, and stay on it *)
Theorem C108_multiple : forall c, smooth c -> forall m P n, pok P -> on_c c (jac P) -> int256_ok n ->
  exists R, mult_scalar m P n = Ok R /\ pok R /\ jac R = nmul (Z.to_nat (eff_scalar n)) (jac P) /\ on_c c (jac R).
Proof. exact mult_c. Qed.
Print Assumptions C108_multiple.
Theorem C108_group : forall c, smooth c -> forall P Q R, on_c c P -> on_c c Q -> on_c c R ->
  on_c c (eadd P Q) /\ eadd (eadd P Q) R = eadd P (eadd Q R) /\ eadd P Q = eadd Q P /\ eadd P (eneg P) = Inf /\ on_c c (eneg P).
Proof. exact (fun c Sm P Q R HP HQ HR => conj (c_eadd c P Q HP HQ) (conj (c_assoc c Sm P Q R HP HQ HR) (conj (c_comm c P Q HP HQ) (conj (c_neg c P HP) (c_eneg c P HP))))). Qed.
Print Assumptions C108_group.
(** a pair of coordinates lies on one of these curves; that of an accepted pair is smooth *)
Theorem C108_one_curve : forall x y, exists c, on_c c (Aff x y) /\ forall c', on_c c' (Aff x y) -> c' = c.
Proof. exact every_curve. Qed.
Print Assumptions C108_one_curve.
Theorem C108_accepted : forall m data N, from_uncompressed_bytes m data = Ok (Some N) ->
  int256_ok (nx N) /\ int256_ok (ny N) /\ smooth (c_of (limbs_val (nx N))) /\ on_c (c_of (limbs_val (nx N))) (Aff (fv (nx N)) (fv (ny N))).
Proof. exact accepted_on. Qed.
Print Assumptions C108_accepted.
(** the pre-master secret *)
Theorem C108_secret : forall m s p g c, client_new m s p g = (Ok tt, c) -> exists ss k rest x y j,
  reached m s g (Complete ss) /\ tls_read i_ske (s_ske ss) = Ok (k, rest) /\ ske_public k = enc x y /\ 0 <= x < 2 ^ 256 /\ 0 <= y < 2 ^ 256 /\
  welcome x y /\ first_accepted (skipn 32 g) j /\ on_c (c_of x) (Aff (toF x) (toF y)) /\
  s_pms ss = secret_of (nmul (Z.to_nat (used_scalar (draw (skipn 32 g) j))) (Aff (toF x) (toF y))).
Proof. exact handshake_secret. Qed.
Print Assumptions C108_secret.
(** and with every point that is accepted a handshake goes through, for every tape of random bytes; [sv_secret sv] plays no part *)
Theorem C108_connects : forall m sv x y g j p, wf_server sv -> 0 <= x < 2 ^ 256 -> 0 <= y < 2 ^ 256 -> welcome x y -> (m = Debug -> ~ overstepping x) ->
  (32 <= length g)%nat -> first_accepted (skipn 32 g) j -> healthy (writer_new p) ->
  exists s ss c, clean s /\ client_new m s p g = (Ok tt, c) /\ reached m s g (Complete ss) /\
    s_ske ss = e_ske (Ske (sv_curve sv) (enc x y) (sv_sig sv)) /\
    s_pms ss = secret_of (nmul (Z.to_nat (used_scalar (draw (skipn 32 g) j))) (Aff (toF x) (toF y))).
Proof. exact point_connects. Qed.
Print Assumptions C108_connects.
(** so a connection of the release build need not rest on P-256 *)
Theorem C108_P256_refuted : exists s g c ss x y, client_new Release s [] g = (Ok tt, c) /\ reached Release s g (Complete ss) /\
  s_ske ss = e_ske (Ske secp256r1 (enc x y) (sv_sig plain_server)) /\ 0 <= x < 2 ^ 256 /\ 0 <= y < 2 ^ 256 /\ ~ oncurve (Aff (toF x) (toF y)).
Proof. exact off_connects. Qed.
Print Assumptions C108_P256_refuted.
(** P-256 is one of the curves and is smooth; y^2 = x^3 - 3x + 2 is not: (1, 0) is its singular point *)
Example ex_p256 : smooth cB /\ on_c cB Gpt /\ forall P, on_c cB P <-> oncurve P.
Proof.
  split; [split; apply feqb_false; vm_compute; reflexivity|]. split; [apply feq; vm_compute; reflexivity|].
  intros P. rewrite on_c_eq. reflexivity.
Qed.
Example ex_singular : on_c (toF 2) (Aff (toF 1) f0) /\ ~ smooth (toF 2).
Proof. split; [apply feq; vm_compute; reflexivity|]. intros [H _]. exact (H eq_refl). Qed.
Example ex_off : smooth (c_of off_x) /\ c_of off_x <> cB.
Proof. split; [split|]; apply feqb_false; vm_compute; reflexivity. Qed.
Example ex_tape : first_accepted (skipn 32 one_tape) 0 /\ wf_server plain_server.
Proof. exact (conj one_accepted plain_wf). Qed.
