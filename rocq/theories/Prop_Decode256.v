(** C107: exactly which bytes are taken for a point, in both builds. *)
From Verif Require Import Spec_Client Spec_Decode256 P_P256X P_Decode256 P_Decode256c.
Local Open Scope list_scope.
Local Open Scope Z_scope.

(** all byte strings: what is accepted, and what stops the debug build; everything else gives [None] *)
Theorem C107_accepted : forall m data N, from_uncompressed_bytes m data = Ok (Some N) <->
  int256_ok (nx N) /\ int256_ok (ny N) /\ data = enc (limbs_val (nx N)) (limbs_val (ny N)) /\ welcome (limbs_val (nx N)) (limbs_val (ny N)) /\
  (m = Debug -> ~ overstepping (limbs_val (nx N))).
Proof. exact exact_all. Qed.
Print Assumptions C107_accepted.
Theorem C107_panics : forall m data, from_uncompressed_bytes m data = Panic <->
  m = Debug /\ exists x y, 0 <= x < 2 ^ 256 /\ 0 <= y < 2 ^ 256 /\ overstepping x /\ data = enc x y.
Proof. exact exact_panic. Qed.
Print Assumptions C107_panics.
(** by coordinates *)
Theorem C107_release : forall x y, 0 <= x < 2 ^ 256 -> 0 <= y < 2 ^ 256 -> decided x y (from_uncompressed_bytes Release (enc x y)).
Proof. exact exact_release. Qed.
Print Assumptions C107_release.
Theorem C107_debug : forall x y, 0 <= x < 2 ^ 256 -> 0 <= y < 2 ^ 256 ->
  (overstepping x /\ from_uncompressed_bytes Debug (enc x y) = Panic) \/ (~ overstepping x /\ decided x y (from_uncompressed_bytes Debug (enc x y))).
Proof. exact exact_debug. Qed.
Print Assumptions C107_debug.
(** the accepted points lie on three curves, y^2 = x^3 - 3x + b + e (2^256 - p) for e = 0, 1, 2; only the first is P-256, and all three occur *)
Theorem C107_curves : forall x y, welcome x y -> on_curve_of (b256 + oversteps x * excess) x y.
Proof. exact welcome_curve. Qed.
Print Assumptions C107_curves.
Theorem C107_three : forall x, x < 2 ^ 256 -> 0 <= oversteps x <= 2.
Proof. exact oversteps_range. Qed.
Print Assumptions C107_three.
Theorem C107_each_curve : forall e, e = 0 \/ e = 1 \/ e = 2 -> exists x y, p256 <= x < 2 ^ 256 /\ 0 <= y < 2 ^ 256 /\ welcome x y /\ oversteps x = e.
Proof. exact three_curves. Qed.
Print Assumptions C107_each_curve.
(** the release build accepts a point that is not on P-256 exactly where the debug build stops *)
Theorem C107_off_curve : forall x y, x < 2 ^ 256 -> welcome x y -> (oncurve (Aff (toF x) (toF y)) <-> ~ overstepping x).
Proof. exact welcome_oncurve. Qed.
Print Assumptions C107_off_curve.
(** not every pair of numbers that is a point modulo p is accepted, even where nothing goes wrong in the sums *)
Theorem C107_every_point_refuted : exists x y, 0 <= x < 2 ^ 256 /\ 0 <= y < 2 ^ 256 /\ oncurve (Aff (toF x) (toF y)) /\ ~ overstepping x /\
  forall m, from_uncompressed_bytes m (enc x y) = Ok None.
Proof. exact lost_point. Qed.
Print Assumptions C107_every_point_refuted.
(** the server's point in every handshake that went through *)
Theorem C107_handshake : forall m s p g c, client_new m s p g = (Ok tt, c) -> exists ss k rest x y,
  reached m s g (Complete ss) /\ tls_read i_ske (s_ske ss) = Ok (k, rest) /\ ske_public k = enc x y /\ 0 <= x < 2 ^ 256 /\ 0 <= y < 2 ^ 256 /\
  welcome x y /\ on_curve_of (b256 + oversteps x * excess) x y /\ (m = Debug -> oversteps x = 0).
Proof. exact handshake_point. Qed.
Print Assumptions C107_handshake.
(** [b256] is the curve's constant; the base point is welcome; a point off the curve is welcome; a wrong one is not *)
Example ex_b : cB = toF b256.
Proof. reflexivity. Qed.
Example ex_base : welcome Gx Gy /\ oversteps Gx = 0.
Proof. split; [left; split; vm_compute; reflexivity|reflexivity]. Qed.
Example ex_off : welcome off_x off_y /\ oversteps off_x = 2 /\ overstepping off_x.
Proof. split; [right; split; [discriminate|vm_compute; reflexivity]|]. split; [vm_compute; reflexivity|split; discriminate]. Qed.
Example ex_wrong : ~ welcome Gx (Gy + 1).
Proof. intros [[_ A]|[A _]]; [vm_compute in A; discriminate A|apply A; reflexivity]. Qed.
