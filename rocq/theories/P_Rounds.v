(** Proofs for C111. *)
From Verif Require Export Spec_Rounds M_Chacha20 P_Word P_Chacha.
From Coq Require Import ZifyBool ZifyNat ZifyN.
Local Open Scope Z_scope.

(** the quarter round of the code on four words *)
Definition qr (t : Z * Z * Z * Z) : Z * Z * Z * Z :=
  let '(a, b, c, d) := t in
  let a := wadd a b in let d := rotate_left (Z.lxor d a) 16 in
  let c := wadd c d in let b := rotate_left (Z.lxor b c) 12 in
  let a := wadd a b in let d := rotate_left (Z.lxor d a) 8 in
  let c := wadd c d in let b := rotate_left (Z.lxor b c) 7 in
  (a, b, c, d).
Definition qw (t : Z * Z * Z * Z) : Prop := let '(a, b, c, d) := t in is_word a /\ is_word b /\ is_word c /\ is_word d.

Definition dbl (v : list Z) : list Z :=
  match v with
  | [w0; w1; w2; w3; w4; w5; w6; w7; w8; w9; w10; w11; w12; w13; w14; w15] =>
      let '(w0, w4, w8, w12) := qr (w0, w4, w8, w12) in
      let '(w1, w5, w9, w13) := qr (w1, w5, w9, w13) in
      let '(w2, w6, w10, w14) := qr (w2, w6, w10, w14) in
      let '(w3, w7, w11, w15) := qr (w3, w7, w11, w15) in
      let '(w0, w5, w10, w15) := qr (w0, w5, w10, w15) in
      let '(w1, w6, w11, w12) := qr (w1, w6, w11, w12) in
      let '(w2, w7, w8, w13) := qr (w2, w7, w8, w13) in
      let '(w3, w4, w9, w14) := qr (w3, w4, w9, w14) in
      [w0; w1; w2; w3; w4; w5; w6; w7; w8; w9; w10; w11; w12; w13; w14; w15]
  | _ => v
  end.

Lemma list16 {A} (v : list A) : length v = 16%nat -> exists w0 w1 w2 w3 w4 w5 w6 w7 w8 w9 w10 w11 w12 w13 w14 w15,
  v = [w0; w1; w2; w3; w4; w5; w6; w7; w8; w9; w10; w11; w12; w13; w14; w15].
Proof.
  intros H. do 16 (destruct v as [|? v]; [discriminate H|]). destruct v; [|discriminate H]. do 16 eexists. reflexivity.
Qed.

Section Col.
Variables w0 w1 w2 w3 w4 w5 w6 w7 w8 w9 w10 w11 w12 w13 w14 w15 : Z.
Let v := [w0; w1; w2; w3; w4; w5; w6; w7; w8; w9; w10; w11; w12; w13; w14; w15].
Lemma q0 : quarter_round v 0 4 8 12 = let '(a, b, c, d) := qr (w0, w4, w8, w12) in [a; w1; w2; w3; b; w5; w6; w7; c; w9; w10; w11; d; w13; w14; w15].
Proof. reflexivity. Qed.
Lemma q1 : quarter_round v 1 5 9 13 = let '(a, b, c, d) := qr (w1, w5, w9, w13) in [w0; a; w2; w3; w4; b; w6; w7; w8; c; w10; w11; w12; d; w14; w15].
Proof. reflexivity. Qed.
Lemma q2 : quarter_round v 2 6 10 14 = let '(a, b, c, d) := qr (w2, w6, w10, w14) in [w0; w1; a; w3; w4; w5; b; w7; w8; w9; c; w11; w12; w13; d; w15].
Proof. reflexivity. Qed.
Lemma q3 : quarter_round v 3 7 11 15 = let '(a, b, c, d) := qr (w3, w7, w11, w15) in [w0; w1; w2; a; w4; w5; w6; b; w8; w9; w10; c; w12; w13; w14; d].
Proof. reflexivity. Qed.
Lemma q4 : quarter_round v 0 5 10 15 = let '(a, b, c, d) := qr (w0, w5, w10, w15) in [a; w1; w2; w3; w4; b; w6; w7; w8; w9; c; w11; w12; w13; w14; d].
Proof. reflexivity. Qed.
Lemma q5 : quarter_round v 1 6 11 12 = let '(a, b, c, d) := qr (w1, w6, w11, w12) in [w0; a; w2; w3; w4; w5; b; w7; w8; w9; w10; c; d; w13; w14; w15].
Proof. reflexivity. Qed.
Lemma q6 : quarter_round v 2 7 8 13 = let '(a, b, c, d) := qr (w2, w7, w8, w13) in [w0; w1; a; w3; w4; w5; w6; b; c; w9; w10; w11; w12; d; w14; w15].
Proof. reflexivity. Qed.
Lemma q7 : quarter_round v 3 4 9 14 = let '(a, b, c, d) := qr (w3, w4, w9, w14) in [w0; w1; w2; a; b; w5; w6; w7; w8; c; w10; w11; w12; w13; d; w15].
Proof. reflexivity. Qed.
End Col.

#[local] Opaque qr quarter_round.
Lemma double_dbl v : length v = 16%nat -> double_round v = dbl v.
Proof.
  intros H. destruct (list16 v H) as (w0 & w1 & w2 & w3 & w4 & w5 & w6 & w7 & w8 & w9 & w10 & w11 & w12 & w13 & w14 & w15 & ->).
  unfold double_round, dbl. cbv zeta.
  rewrite q0. destruct (qr (w0, w4, w8, w12)) as [[[a0 b0] c0] d0].
  rewrite q1. destruct (qr (w1, w5, w9, w13)) as [[[a1 b1] c1] d1].
  rewrite q2. destruct (qr (w2, w6, w10, w14)) as [[[a2 b2] c2] d2].
  rewrite q3. destruct (qr (w3, w7, w11, w15)) as [[[a3 b3] c3] d3].
  rewrite q4. destruct (qr (a0, b1, c2, d3)) as [[[a4 b4] c4] d4].
  rewrite q5. destruct (qr (a1, b2, c3, d0)) as [[[a5 b5] c5] d5].
  rewrite q6. destruct (qr (a2, b3, c0, d1)) as [[[a6 b6] c6] d6].
  rewrite q7. reflexivity.
Qed.
#[local] Transparent qr quarter_round.

(** taking a step back *)
Lemma sub_wadd a b : is_word a -> sub32 (wadd a b) b = a.
Proof. unfold is_word, sub32, wadd. intros H. Z.div_mod_to_equations. lia. Qed.
Lemma wadd_sub a b : is_word a -> wadd (sub32 a b) b = a.
Proof. unfold is_word, sub32, wadd. intros H. Z.div_mod_to_equations. lia. Qed.
Lemma sub_word a b : is_word (sub32 a b).
Proof. unfold is_word, sub32. apply Z.mod_pos_bound. lia. Qed.
Lemma ror_rot x n : is_word x -> n = 7 \/ n = 8 \/ n = 12 \/ n = 16 -> ror (rotate_left x n) n = x.
Proof.
  intros H Hn. rewrite rotate_left_rol by (assumption || lia). unfold is_word, ror, rol in *.
  destruct Hn as [-> | [-> | [-> | -> ]]]; cbn [Z.sub]; Z.div_mod_to_equations; lia.
Qed.
Lemma rot_ror x n : is_word x -> n = 7 \/ n = 8 \/ n = 12 \/ n = 16 -> is_word (ror x n) /\ rotate_left (ror x n) n = x.
Proof.
  intros H Hn. assert (W : is_word (ror x n)).
  { unfold is_word, ror in *. destruct Hn as [-> | [-> | [-> | -> ]]]; Z.div_mod_to_equations; lia. }
  split; [exact W|]. rewrite rotate_left_rol by (assumption || lia). clear W. unfold is_word, ror, rol in *.
  destruct Hn as [-> | [-> | [-> | -> ]]]; Z.div_mod_to_equations; lia.
Qed.
Lemma lxor_back a b : Z.lxor (Z.lxor a b) b = a.
Proof. rewrite Z.lxor_assoc, Z.lxor_nilpotent. apply Z.lxor_0_r. Qed.

Lemma qr_qw t : qw t -> qw (qr t).
Proof.
  destruct t as [[[a b] c] d]. intros (Ha & Hb & Hc & Hd). unfold qr, qw.
  repeat match goal with |- _ /\ _ => split end;
    repeat first [ apply wadd_word | apply rol_word; [|lia] | apply lxor_word | assumption ].
Qed.
Lemma unq_qr t : qw t -> UNQUARTER (qr t) = t.
Proof.
  destruct t as [[[a b] c] d]. intros (Ha & Hb & Hc & Hd). unfold qr, UNQUARTER.
  rewrite !ror_rot by (repeat first [ apply wadd_word | apply rol_word; [|lia] | apply lxor_word | assumption | lia ]).
  rewrite !lxor_back.
  rewrite !sub_wadd by (repeat first [ apply wadd_word | apply rol_word; [|lia] | apply lxor_word | assumption ]).
  rewrite !ror_rot by (repeat first [ apply wadd_word | apply rol_word; [|lia] | apply lxor_word | assumption | lia ]).
  rewrite !lxor_back.
  rewrite !sub_wadd by (repeat first [ apply wadd_word | apply rol_word; [|lia] | apply lxor_word | assumption ]).
  reflexivity.
Qed.
Lemma unq_qw t : qw t -> qw (UNQUARTER t).
Proof.
  destruct t as [[[a b] c] d]. intros (Ha & Hb & Hc & Hd). unfold UNQUARTER, qw.
  repeat match goal with |- _ /\ _ => split end;
    repeat first [ apply sub_word | refine (proj1 (rot_ror _ _ _ _)); [|lia] | apply lxor_word | assumption ].
Qed.
Lemma qr_unq t : qw t -> qr (UNQUARTER t) = t.
Proof.
  destruct t as [[[a b] c] d]. intros (Ha & Hb & Hc & Hd). unfold qr, UNQUARTER.
  set (b1 := Z.lxor (ror b 7) c). set (c1 := sub32 c d). set (d1 := Z.lxor (ror d 8) a). set (a1 := sub32 a b1).
  set (b2 := Z.lxor (ror b1 12) c1). set (c2 := sub32 c1 d1). set (d2 := Z.lxor (ror d1 16) a1).
  assert (W1 : is_word b1) by (apply lxor_word; [refine (proj1 (rot_ror _ _ _ _)); [assumption|lia]|assumption]).
  assert (W2 : is_word c1) by apply sub_word.
  assert (W3 : is_word d1) by (apply lxor_word; [refine (proj1 (rot_ror _ _ _ _)); [assumption|lia]|assumption]).
  assert (W4 : is_word a1) by apply sub_word.
  rewrite (wadd_sub a1 b2) by assumption.
  replace (Z.lxor d2 a1) with (ror d1 16) by (symmetry; apply lxor_back).
  rewrite (proj2 (rot_ror d1 16 W3 ltac:(lia))).
  replace (wadd c2 d1) with c1 by (symmetry; apply wadd_sub; assumption).
  replace (Z.lxor b2 c1) with (ror b1 12) by (symmetry; apply lxor_back).
  rewrite !(proj2 (rot_ror b1 12 W1 ltac:(lia))).
  replace (wadd a1 b1) with a by (symmetry; apply wadd_sub; assumption).
  replace (Z.lxor d1 a) with (ror d 8) by (symmetry; apply lxor_back).
  rewrite !(proj2 (rot_ror d 8 Hd ltac:(lia))).
  replace (wadd c1 d) with c by (symmetry; apply wadd_sub; assumption).
  replace (Z.lxor b1 c) with (ror b 7) by (symmetry; apply lxor_back).
  rewrite !(proj2 (rot_ror b 7 Hb ltac:(lia))). reflexivity.
Qed.

#[local] Opaque qr UNQUARTER.
Lemma dbl_sixteen v : sixteen v -> sixteen (dbl v) /\ un_double (dbl v) = v.
Proof.
  intros (H & F). destruct (list16 v H) as (w0 & w1 & w2 & w3 & w4 & w5 & w6 & w7 & w8 & w9 & w10 & w11 & w12 & w13 & w14 & w15 & ->).
  repeat match goal with F : Forall _ (_ :: _) |- _ => apply Forall_cons_iff in F; destruct F as (? & F) end. clear F H.
  unfold dbl.
  repeat match goal with |- context [match qr ?t with _ => _ end] =>
    lazymatch t with context [qr _] => fail | _ =>
      let Q := fresh "Q" in let E := fresh "E" in let U := fresh "U" in
      assert (Q : qw t) by (refine (conj _ (conj _ (conj _ _))); assumption);
      pose proof (qr_qw t Q) as U; apply unq_qr in Q; destruct (qr t) as [[[? ?] ?] ?]; unfold qw in U; destruct U as (? & ? & ? & ?)
    end end.
  split; [split; [reflexivity|repeat (apply Forall_cons; [assumption|]); apply Forall_nil]|].
  unfold un_double.
  repeat match goal with Q : UNQUARTER ?t = _ |- context [UNQUARTER ?t] => rewrite Q; cbv beta iota end.
  reflexivity.
Qed.
Lemma un_sixteen v : sixteen v -> sixteen (un_double v) /\ dbl (un_double v) = v.
Proof.
  intros (H & F). destruct (list16 v H) as (w0 & w1 & w2 & w3 & w4 & w5 & w6 & w7 & w8 & w9 & w10 & w11 & w12 & w13 & w14 & w15 & ->).
  repeat match goal with F : Forall _ (_ :: _) |- _ => apply Forall_cons_iff in F; destruct F as (? & F) end. clear F H.
  unfold un_double.
  repeat match goal with |- context [match UNQUARTER ?t with _ => _ end] =>
    lazymatch t with context [UNQUARTER _] => fail | _ =>
      let Q := fresh "Q" in let E := fresh "E" in let U := fresh "U" in
      assert (Q : qw t) by (refine (conj _ (conj _ (conj _ _))); assumption);
      pose proof (unq_qw t Q) as U; apply qr_unq in Q; destruct (UNQUARTER t) as [[[? ?] ?] ?]; unfold qw in U; destruct U as (? & ? & ? & ?)
    end end.
  split; [split; [reflexivity|repeat (apply Forall_cons; [assumption|]); apply Forall_nil]|].
  unfold dbl.
  repeat match goal with Q : qr ?t = _ |- context [qr ?t] => rewrite Q; cbv beta iota end.
  reflexivity.
Qed.
#[local] Transparent qr UNQUARTER.

(** the rounds are a permutation, undone by [un_double] *)
Theorem round_permutation : forall v, sixteen v ->
  sixteen (double_round v) /\ un_double (double_round v) = v /\ sixteen (un_double v) /\ double_round (un_double v) = v.
Proof.
  intros v H. rewrite (double_dbl v) by apply H. destruct (dbl_sixteen v H) as (A & B). destruct (un_sixteen v H) as (C & D).
  rewrite (double_dbl (un_double v)) by apply C. auto.
Qed.
Lemma iter_r {A} (f : A -> A) k x : Nat.iter (S k) f x = Nat.iter k f (f x).
Proof. induction k; [reflexivity|]. change (Nat.iter (S (S k)) f x) with (f (Nat.iter (S k) f x)). rewrite IHk. reflexivity. Qed.
Lemma iter_inv {A} (P : A -> Prop) (f g : A -> A) : (forall v, P v -> P (f v) /\ g (f v) = v) -> forall k v, P v ->
  P (Nat.iter k f v) /\ Nat.iter k g (Nat.iter k f v) = v.
Proof.
  intros S. induction k; intros v H; [split; [exact H|reflexivity]|]. destruct (IHk v H) as (H1 & E). destruct (S _ H1) as (H2 & E2).
  split; [exact H2|]. rewrite (iter_r g k). change (Nat.iter (Datatypes.S k) f v) with (f (Nat.iter k f v)). rewrite E2. exact E.
Qed.
Lemma iter_perm k : forall v, sixteen v -> sixteen (Nat.iter k double_round v) /\ Nat.iter k un_double (Nat.iter k double_round v) = v /\
  sixteen (Nat.iter k un_double v) /\ Nat.iter k double_round (Nat.iter k un_double v) = v.
Proof.
  intros v H.
  destruct (iter_inv sixteen double_round un_double (fun v H => conj (proj1 (round_permutation v H)) (proj1 (proj2 (round_permutation v H)))) k v H) as (A & B).
  destruct (iter_inv sixteen un_double double_round (fun v H => proj2 (proj2 (round_permutation v H))) k v H) as (C & D). auto.
Qed.
Theorem rounds_permutation : forall v, sixteen v -> sixteen (Nat.iter 10 double_round v) /\ Nat.iter 10 un_double (Nat.iter 10 double_round v) = v /\
  sixteen (Nat.iter 10 un_double v) /\ Nat.iter 10 double_round (Nat.iter 10 un_double v) = v.
Proof. exact (iter_perm 10). Qed.
