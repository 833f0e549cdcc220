(** Specification-side mathematics: Fermat's little theorem and a Pocklington-style primality criterion with a
    checker.  Nothing here models code of /repo. *)
From Coq Require Import ZArith Znumtheory Lia List Permutation Bool.
From Coq Require Import ZifyBool ZifyNat ZifyN.
Import ListNotations.
Open Scope Z_scope.

(** ** Fermat's little theorem *)
Definition range (n : Z) : list Z := map Z.of_nat (seq 1 (Z.to_nat (n - 1))).
Lemma in_range n x : 0 < n -> In x (range n) <-> 1 <= x < n.
Proof.
  intros Hn. unfold range. rewrite in_map_iff. split.
  - intros (k & <- & H). apply in_seq in H. lia.
  - intros H. exists (Z.to_nat x). split; [lia|]. apply in_seq. lia.
Qed.
Lemma NoDup_range n : NoDup (range n).
Proof.
  unfold range. apply FinFun.Injective_map_NoDup; [|apply seq_NoDup]. intros a b H. lia.
Qed.
Definition prodz (l : list Z) : Z := fold_right Z.mul 1 l.
Lemma prodz_perm l l' : Permutation l l' -> prodz l = prodz l'.
Proof. induction 1; cbn [prodz fold_right] in *; try ring; try congruence. unfold prodz in *; congruence. Qed.
Lemma mod_mul_l a b n : ((a mod n) * b) mod n = (a * b) mod n.
Proof. apply Zmult_mod_idemp_l. Qed.
Definition zl {A} (l : list A) : Z := Z.of_nat (length l).
Lemma prodz_scale a p l : 0 < p ->
  prodz (map (fun x => (a * x) mod p) l) mod p = (a ^ zl l * prodz l) mod p.
Proof.
  intros Hp. induction l as [|x l IH]; [reflexivity|].
  cbn [map prodz fold_right]. fold (prodz l). fold (prodz (map (fun x => (a * x) mod p) l)).
  unfold zl in *. cbn [length]. rewrite Nat2Z.inj_succ, Z.pow_succ_r by lia.
  rewrite Zmult_mod_idemp_l. rewrite <- Zmult_mod_idemp_r, IH, Zmult_mod_idemp_r. f_equal. ring.
Qed.
Lemma prime_pos p : prime p -> 1 < p. Proof. intros [H _]. exact H. Qed.
Lemma prodz_coprime p l : prime p -> (forall x, In x l -> 1 <= x < p) -> ~ (p | prodz l).
Proof.
  intros Hp. induction l as [|x l IH]; intros H D.
  - cbn in D. apply Z.divide_1_r in D. pose proof (prime_pos p Hp). lia.
  - cbn [prodz fold_right] in D. apply prime_mult in D; [|assumption]. destruct D as [D|D].
    + apply Z.divide_pos_le in D; pose proof (H x (or_introl eq_refl)); lia.
    + apply IH; [|exact D]. intros y Hy. apply H. right. exact Hy.
Qed.
Lemma div_mod_eq p a b : 0 < p -> a mod p = b mod p <-> (p | a - b).
Proof.
  intros Hp. split.
  - intros H. apply Z.mod_divide; [lia|]. rewrite Zminus_mod, H, Z.sub_diag. apply Z.mod_0_l. lia.
  - intros [k Hk]. replace a with (b + k * p) by lia. apply Z.mod_add. lia.
Qed.
Theorem fermat p a : prime p -> ~ (p | a) -> a ^ (p - 1) mod p = 1.
Proof.
  intros Hp Ha. pose proof (prime_pos p Hp) as P1.
  assert (Perm : Permutation (map (fun x => (a * x) mod p) (range p)) (range p)).
  { apply NoDup_Permutation_bis.
    - assert (G : forall l, NoDup l -> (forall x, In x l -> 1 <= x < p) -> NoDup (map (fun x => (a * x) mod p) l)).
      { induction 1 as [|x l Hx Hl IH]; intros Hin; [constructor|]. cbn [map]. constructor.
        - rewrite in_map_iff. intros (y & E & Hy). apply Hx.
          apply div_mod_eq in E; [|lia]. replace (a * y - a * x) with (a * (y - x)) in E by ring.
          apply prime_mult in E; [|assumption]. destruct E as [E|E]; [contradiction|].
          pose proof (Hin x (or_introl eq_refl)). pose proof (Hin y (or_intror Hy)).
          destruct (Z.eq_dec y x) as [->|N]; [assumption|]. exfalso.
          apply Z.divide_abs_r in E. apply Z.divide_pos_le in E; lia.
        - apply IH. intros y Hy. apply Hin. right. exact Hy. }
      apply G; [apply NoDup_range|]. intros x. apply in_range. lia.
    - rewrite map_length. lia.
    - intros y Hy. apply in_map_iff in Hy as (x & <- & Hx). apply in_range in Hx; [|lia]. apply in_range; [lia|].
      pose proof (Z.mod_pos_bound (a * x) p ltac:(lia)).
      assert ((a * x) mod p <> 0); [|lia]. intros E. apply Z.mod_divide in E; [|lia].
      apply prime_mult in E; [|assumption]. destruct E as [E|E]; [contradiction|].
      apply Z.divide_pos_le in E; lia. }
  apply prodz_perm in Perm. pose proof (prodz_scale a p (range p) ltac:(lia)) as S. rewrite Perm in S.
  assert (L : zl (range p) = p - 1) by (unfold zl, range; rewrite map_length, seq_length; lia). rewrite L in S.
  symmetry in S. apply div_mod_eq in S; [|lia].
  replace (a ^ (p - 1) * prodz (range p) - prodz (range p)) with ((a ^ (p - 1) - 1) * prodz (range p)) in S by ring.
  apply prime_mult in S; [|assumption]. destruct S as [S|S].
  - apply div_mod_eq in S; [|lia]. rewrite S. apply Z.mod_small. lia.
  - exfalso. revert S. apply prodz_coprime; [assumption|]. intros x. apply in_range. lia.
Qed.

(** ** Pocklington *)
Lemma pow_mod_1 b k n : 0 < n -> 1 < n -> 0 <= k -> b mod n = 1 -> b ^ k mod n = 1.
Proof.
  intros Hn H1 Hk Hb. revert k Hk. apply natlike_ind.
  - apply Z.mod_small. lia.
  - intros k Hk IH. rewrite Z.pow_succ_r by lia. rewrite Zmult_mod, Hb, IH. apply Z.mod_small. lia.
Qed.
(** coprime orders *)
Lemma pow_mul_1 b d m v : 1 < d -> 0 <= m -> 0 <= v -> b ^ m mod d = 1 -> b ^ (v * m) mod d = 1.
Proof. intros Hd Hm Hv E. rewrite Z.mul_comm, Z.pow_mul_r by assumption. apply pow_mod_1; [clear E; lia|assumption..]. Qed.
Lemma pow_step b d m n : 1 < d -> 0 <= m -> n = 1 + m -> b ^ n mod d = 1 -> b ^ m mod d = 1 -> b mod d = 1.
Proof.
  intros Hd Hm -> En Em. rewrite Z.pow_add_r, Z.pow_1_r in En by (clear En Em; lia).
  rewrite Zmult_mod, Em, Z.mul_1_r, Z.mod_mod in En by (clear En Em; lia). exact En.
Qed.
Lemma bezout_sign q e u v : 1 < q -> 0 < e -> u * q + v * e = 1 ->
  (0 <= - u /\ 0 <= v /\ v * e = 1 + - u * q) \/ (0 <= u /\ 0 <= - v /\ u * q = 1 + - v * e).
Proof. intros Hq He E. destruct (Z.leb_spec u 0); [left|right]; repeat split; nia. Qed.
Lemma order_coprime d b q : 1 < d -> prime q -> b ^ q mod d = 1 -> b ^ (d - 1) mod d = 1 -> b mod d <> 1 -> (q | d - 1).
Proof.
  intros Hd Hq Eq Ed Nb. destruct (Zdivide_dec q (d - 1)) as [D|D]; [exact D|exfalso].
  assert (R : rel_prime q (d - 1)) by (apply prime_rel_prime; assumption).
  apply rel_prime_bezout in R. destruct R as [u v E]. pose proof (prime_pos q Hq) as Q1.
  assert (D1 : 0 < d - 1) by (clear - Hd; lia). assert (Q0 : 0 <= q) by (clear - Q1; lia).
  assert (D0 : 0 <= d - 1) by (clear - Hd; lia).
  apply Nb. destruct (bezout_sign q (d - 1) u v Q1 D1 E) as [(A & B & C)|(A & B & C)].
  - apply (pow_step b d (- u * q) (v * (d - 1))); [assumption|clear - A Q0; nia|assumption|apply pow_mul_1; assumption|apply pow_mul_1; assumption].
  - apply (pow_step b d (- v * (d - 1)) (u * q)); [assumption|clear - B D0; nia|assumption|apply pow_mul_1; assumption|apply pow_mul_1; assumption].
Qed.
Lemma mod_one_divisor x N d : 1 < d -> 0 < N -> (d | N) -> x mod N = 1 -> x mod d = 1.
Proof.
  intros Hd HN D E. assert (F : (N | x - 1)).
  { exists (x / N). pose proof (Z.div_mod x N ltac:(lia)). lia. }
  assert (G : (d | x - 1)) by (eapply Z.divide_trans; eassumption).
  apply div_mod_eq in G; [|lia]. rewrite G. apply Z.mod_small. lia.
Qed.
Lemma pock_factor N a q d : 1 < N -> prime q -> (q | N - 1) -> prime d -> (d | N) ->
  a ^ (N - 1) mod N = 1 -> Z.gcd (a ^ ((N - 1) / q) - 1) N = 1 -> (q | d - 1).
Proof.
  intros HN Hq Dq Hd Dd E G. pose proof (prime_pos d Hd) as D1. pose proof (prime_pos q Hq) as Q1.
  set (b := a ^ ((N - 1) / q)) in *.
  assert (K : 0 <= (N - 1) / q) by (apply Z.div_pos; lia).
  assert (Eb : b ^ q = a ^ (N - 1)).
  { unfold b. rewrite <- Z.pow_mul_r by lia. f_equal. destruct Dq as [k Hk]. rewrite Hk, Z.div_mul by lia. reflexivity. }
  assert (Bq : b ^ q mod d = 1) by (rewrite Eb; apply (mod_one_divisor _ N); lia || assumption).
  assert (Nb : b mod d <> 1).
  { intros H. assert (H' : (d | b - 1)) by (apply div_mod_eq; [lia|]; rewrite H; symmetry; apply Z.mod_small; lia).
    assert (X : (d | 1)) by (rewrite <- G; apply Z.gcd_greatest; assumption). apply Z.divide_1_r in X. lia. }
  apply (order_coprime d b q); try assumption.
  apply fermat; [assumption|]. intros D.
  assert (X : (d | b ^ q)).
  { replace q with (Z.succ (q - 1)) by lia. rewrite Z.pow_succ_r by lia. apply Z.divide_mul_l. exact D. }
  apply Z.mod_divide in X; [|clear - D1; lia]. rewrite Bq in X. discriminate X.
Qed.
Lemma prime_divisor n : 1 < n -> exists d, prime d /\ (d | n).
Proof.
  intros H. remember (Z.to_nat n) as k eqn:E. revert n H E. induction k as [k IH] using lt_wf_ind; intros n H E.
  destruct (prime_dec n) as [P|P]; [exists n; split; [exact P|apply Z.divide_refl]|].
  apply not_prime_divide in P; [|lia]. destruct P as (m & Hm & D).
  destruct (IH (Z.to_nat m) ltac:(lia) m ltac:(lia) eq_refl) as (d & Pd & Dd).
  exists d. split; [exact Pd|]. eapply Z.divide_trans; eassumption.
Qed.
Lemma divide_all_coprime qs x : (forall q, In q qs -> prime q) -> NoDup qs -> (forall q, In q qs -> (q | x)) -> (prodz qs | x).
Proof.
  intros Hp Hn. revert x. induction Hn as [|q qs Hq Hn IH]; intros x D; [apply Z.divide_1_l|].
  cbn [prodz fold_right]. fold (prodz qs).
  destruct (D q (or_introl eq_refl)) as [k Hk]. subst x.
  rewrite (Z.mul_comm k). apply Z.mul_divide_mono_l. apply IH.
  - intros r Hr. apply Hp. right. exact Hr.
  - intros r Hr. assert (X : (r | k * q)) by (apply D; right; exact Hr).
    apply prime_mult in X; [|apply Hp; right; exact Hr]. destruct X as [X|X]; [exact X|exfalso].
    apply prime_div_prime in X; [subst; contradiction|apply Hp; right; exact Hr|apply Hp; left; reflexivity].
Qed.
Lemma bls_arith N F d e x : 1 < N -> 1 < F -> N < F ^ 3 -> N = e * d -> d - 1 = x * F -> 1 < d -> e <> 1 -> (F | N - 1) ->
  exists z, 1 <= x /\ 1 <= z /\ (N - 1) / F = x + z + x * z * F /\ x * z < F /\ x + z < F.
Proof.
  intros HN HF F3 He Hx D1 NE [y Hy]. replace (F ^ 3) with (F * F * F) in F3 by ring.
  assert (Hd : d = 1 + x * F) by lia. clear Hx. subst d.
  exists (y - e * x). set (z := y - e * x).
  assert (Hz : e = 1 + z * F) by (unfold z; nia). clearbody z. subst e.
  assert (Hx1 : 1 <= x) by nia.
  assert (E0 : 0 < 1 + z * F) by (clear Hy F3 NE; nia).
  assert (Hz1 : 1 <= z) by (clear Hy F3 He; nia).
  assert (HN2 : N = 1 + (x + z) * F + x * z * (F * F)) by (clear - He; nia).
  assert (Hxz : x * z < F). { clear - HN2 F3 HF Hx1 Hz1. assert (x * z * (F * F) < F * (F * F)) by nia. nia. }
  assert (Hsum : x + z < F).
  { destruct (Z.ltb_spec (x + z) F) as [?|L]; [assumption|exfalso].
    assert (x + z <= x * z + 1) by (clear - Hx1 Hz1; nia). assert (X : x * z = F - 1) by lia. rewrite X in HN2.
    clear - HN2 F3 HF L. nia. }
  repeat split; try assumption.
  assert (EN : N - 1 = (x + z + x * z * F) * F) by (rewrite HN2; ring). rewrite EN. apply Z.div_mul. lia.
Qed.
(** primes q dividing F, F^3 > N, and no factorisation (1+aF)(1+bF): N is prime *)
Theorem pocklington N a qs : 1 < N -> (forall q, In q qs -> prime q) -> NoDup qs ->
  let F := prodz qs in (F | N - 1) -> 1 < F -> N < F ^ 3 ->
  a ^ (N - 1) mod N = 1 -> (forall q, In q qs -> Z.gcd (a ^ ((N - 1) / q) - 1) N = 1) ->
  let R := (N - 1) / F in let s := R / F in let r := R mod F in
  (s = 0 \/ forall w, w * w <> r * r - 4 * s) -> prime N.
Proof.
  intros HN Hp Hn F DF HF F3 E G R s r C.
  destruct (prime_dec N) as [P|P]; [exact P|exfalso].
  assert (Hdiv : forall q, In q qs -> (q | N - 1)).
  { intros q Hq. eapply Z.divide_trans; [|exact DF]. clear - Hq. unfold F. induction qs as [|x qs IH]; [contradiction|].
    cbn. destruct Hq as [->|Hq]; [apply Z.divide_factor_l|apply Z.divide_mul_r; apply IH; exact Hq]. }
  destruct (prime_divisor N HN) as (d & Pd & Dd). pose proof (prime_pos d Pd) as D1.
  assert (FD : (F | d - 1)).
  { apply divide_all_coprime; try assumption. intros q Hq. apply (pock_factor N a q d); try assumption; auto. }
  destruct Dd as [e He]. destruct FD as [x Hx].
  assert (NE : e <> 1) by (intros ->; apply P; rewrite He, Z.mul_1_l; exact Pd).
  destruct (bls_arith N F d e x HN HF F3 He Hx D1 NE DF) as (z & Hx1 & Hz1 & HR & Hxz & Hsum).
  assert (Hs : s = x * z). { unfold s, R. fold F. rewrite HR. symmetry. apply Z.div_unique_pos with (x + z); clear - Hsum Hx1 Hz1; lia. }
  assert (Hr : r = x + z). { unfold r, R. fold F. rewrite HR. symmetry. apply Z.mod_unique_pos with (x * z); clear - Hsum Hx1 Hz1; lia. }
  destruct C as [C|C]; [rewrite Hs in C; clear - C Hx1 Hz1; nia|]. apply (C (x - z)). rewrite Hs, Hr. ring.
Qed.

(** ** Checker: modular powers with hinted quotients (any hint gives a congruent value) *)
Fixpoint pow_h (a : Z) (e : positive) (n : Z) (hs : list Z) : Z * list Z :=
  match e with
  | xH => (a, hs)
  | xO e => let '(r, hs) := pow_h a e n hs in (r * r - hd 0 hs * n, tl hs)
  | xI e => let '(r, hs) := pow_h a e n hs in (r * r * a - hd 0 hs * n, tl hs)
  end.
Lemma sub_mul_mod x q n : (x - q * n) mod n = x mod n.
Proof. replace (x - q * n) with (x + - q * n) by ring. apply Z_mod_plus_full. Qed.
Lemma pow_h_spec a e n hs : fst (pow_h a e n hs) mod n = a ^ Zpos e mod n.
Proof.
  induction e as [e IH|e IH|]; cbn [pow_h].
  - destruct (pow_h a e n hs) as [r hs']. cbn [fst] in *. rewrite sub_mul_mod.
    rewrite Pos2Z.inj_xI. replace (2 * Zpos e + 1) with (Zpos e + Zpos e + 1) by lia.
    rewrite !Z.pow_add_r, Z.pow_1_r by lia. rewrite <- (Zmult_mod_idemp_l (r * r)), (Zmult_mod r r), IH, <- Zmult_mod, Zmult_mod_idemp_l. reflexivity.
  - destruct (pow_h a e n hs) as [r hs']. cbn [fst] in *. rewrite sub_mul_mod.
    rewrite Pos2Z.inj_xO. replace (2 * Zpos e) with (Zpos e + Zpos e) by lia.
    rewrite !Z.pow_add_r by lia. rewrite Zmult_mod, IH, <- Zmult_mod. reflexivity.
  - cbn [fst]. rewrite Z.pow_1_r. reflexivity.
Qed.
Lemma pow_mod_congr a b e n : a mod n = b mod n -> 0 <= e -> a ^ e mod n = b ^ e mod n.
Proof.
  intros E. revert e. apply natlike_ind; [reflexivity|]. intros e He IH.
  rewrite !Z.pow_succ_r by lia. rewrite Zmult_mod, E, IH, <- Zmult_mod. reflexivity.
Qed.

Definition not_square (x : Z) : bool := negb (Z.sqrt x * Z.sqrt x =? x).
Lemma not_square_spec x : not_square x = true -> forall w, w * w <> x.
Proof.
  unfold not_square. intros H w E. rewrite <- E in H.
  rewrite <- (Z.abs_square w), Z.sqrt_square in H by lia. lia.
Qed.
(** the primes q dividing F at the leaves of a tree *)
Inductive tree := Leaf (q : positive) | Node (l r : tree).
Fixpoint leaves (t : tree) : list Z := match t with Leaf q => [Zpos q] | Node l r => leaves l ++ leaves r end.
Fixpoint tprod (t : tree) : positive := match t with Leaf q => q | Node l r => (tprod l * tprod r)%positive end.
Fixpoint tcheck (t : tree) (b n : Z) (hs : list Z) : bool * list Z :=
  match t with
  | Leaf q => let '(x, hs) := pow_h b q n hs in ((x =? 1) && (Z.gcd (b - 1) n =? 1), hs)
  | Node l r =>
      let '(bl, hs) := pow_h b (tprod r) n hs in
      let '(okl, hs) := tcheck l bl n hs in
      let '(br, hs) := pow_h b (tprod l) n hs in
      let '(okr, hs) := tcheck r br n hs in
      (okl && okr, hs)
  end.
Lemma prodz_app l r : prodz (l ++ r) = prodz l * prodz r.
Proof. induction l as [|x l IH]; cbn [prodz fold_right app]; [fold (prodz r); ring|]. fold (prodz (l ++ r)). rewrite IH. unfold prodz. ring. Qed.
Lemma tprod_spec t : Zpos (tprod t) = prodz (leaves t).
Proof. induction t; cbn [tprod leaves]; [cbn; lia|]. rewrite Pos2Z.inj_mul, prodz_app. congruence. Qed.
Lemma tcheck_spec t : forall b n hs, 1 < n -> fst (tcheck t b n hs) = true ->
  b ^ Zpos (tprod t) mod n = 1 /\
  forall q, In q (leaves t) -> 0 < q /\ exists m, Zpos (tprod t) = q * m /\ 0 <= m /\ forall x, x mod n = b ^ m mod n -> Z.gcd (x - 1) n = 1.
Proof.
  induction t as [q|l IHl r IHr]; intros b n hs Hn H.
  - cbn [tcheck] in H. destruct (pow_h b q n hs) as [x hs'] eqn:E. pose proof (pow_h_spec b q n hs) as P. rewrite E in P.
    cbn [fst] in *. apply andb_prop in H as [A G]. apply Z.eqb_eq in A, G. subst x. cbn [tprod leaves].
    rewrite <- P, Z.mod_small by (clear - Hn; lia). split; [reflexivity|].
    intros q' [<-|[]]. split; [reflexivity|]. exists 1. split; [|split].
    + lia.
    + lia.
    + intros x Ex. rewrite Z.pow_1_r in Ex. apply div_mod_eq in Ex; [|clear - Hn; lia]. destruct Ex as [k Hk].
      etransitivity; [|exact G]. replace (x - 1) with ((b - 1) + k * n) by (clear - Hk; lia).
      rewrite Z.gcd_comm, Z.gcd_add_mult_diag_r, Z.gcd_comm. reflexivity.
  - cbn [tcheck] in H. destruct (pow_h b (tprod r) n hs) as [bl h1] eqn:E1. pose proof (pow_h_spec b (tprod r) n hs) as P1. rewrite E1 in P1.
    destruct (tcheck l bl n h1) as [okl h2] eqn:E2. pose proof (IHl bl n h1 Hn) as Il. rewrite E2 in Il.
    destruct (pow_h b (tprod l) n h2) as [br h3] eqn:E3. pose proof (pow_h_spec b (tprod l) n h2) as P3. rewrite E3 in P3.
    destruct (tcheck r br n h3) as [okr h4] eqn:E4. pose proof (IHr br n h3 Hn) as Ir. rewrite E4 in Ir.
    cbn [fst] in *. apply andb_prop in H as [A B]. specialize (Il A). specialize (Ir B). cbn [tprod leaves].
    destruct Il as [Fl Il]. destruct Ir as [Fr Ir].
    assert (Q : forall y z : positive, 0 <= Zpos y) by lia.
    split.
    { rewrite Pos2Z.inj_mul, Z.mul_comm, Z.pow_mul_r by (clear; lia). etransitivity; [|exact Fl]. apply pow_mod_congr; [|clear; lia]. symmetry; exact P1. }
    intros q Hq. apply in_app_iff in Hq as [Hq|Hq].
    + destruct (Il q Hq) as (Q0 & m & Em & M0 & G). split; [exact Q0|]. exists (m * Zpos (tprod r)). split; [|split].
      * rewrite Pos2Z.inj_mul, Em. ring.
      * apply Z.mul_nonneg_nonneg; [exact M0|clear; lia].
      * intros x Ex. apply G. rewrite Ex, Z.mul_comm, Z.pow_mul_r by (assumption || (clear; lia)).
        apply pow_mod_congr; [symmetry; exact P1|exact M0].
    + destruct (Ir q Hq) as (Q0 & m & Em & M0 & G). split; [exact Q0|]. exists (m * Zpos (tprod l)). split; [|split].
      * rewrite Pos2Z.inj_mul, Em. ring.
      * apply Z.mul_nonneg_nonneg; [exact M0|clear; lia].
      * intros x Ex. apply G. rewrite Ex, Z.mul_comm, Z.pow_mul_r by (assumption || (clear; lia)).
        apply pow_mod_congr; [symmetry; exact P3|exact M0].
Qed.
(** the powers are taken of c = a^((N-1)/F) *)
Definition pock_check (N a : Z) (R : positive) (t : tree) (hs : list Z) : bool :=
  let F := Zpos (tprod t) in
  let '(c, hs) := pow_h a R N hs in
  (1 <? N) && (N - 1 =? F * Zpos R) && (1 <? F) && (N <? F * F * F) && fst (tcheck t c N hs) &&
  let s := Zpos R / F in let r := Zpos R - s * F in
  ((s =? 0) || not_square (r * r - 4 * s)).
Theorem pock_check_spec N a R t hs : pock_check N a R t hs = true -> NoDup (leaves t) ->
  (forall q, In q (leaves t) -> prime q) -> prime N.
Proof.
  unfold pock_check. destruct (pow_h a R N hs) as [c h1] eqn:EC. intros H Hn Hp.
  pose proof (pow_h_spec a R N hs) as PC. rewrite EC in PC. cbn [fst] in PC. clear EC.
  apply andb_prop in H as [H Hsq]. apply andb_prop in H as [H Ht].
  apply andb_prop in H as [H H3]. apply andb_prop in H as [H HF]. apply andb_prop in H as [HN HD].
  apply Z.ltb_lt in HN, HF, H3. apply Z.eqb_eq in HD.
  destruct (tcheck_spec t c N h1 HN Ht) as [E1 EQ].
  rewrite tprod_spec in *. set (F := prodz (leaves t)) in *.
  assert (F0 : F <> 0) by (clear - HF; lia).
  assert (RE : (N - 1) / F = Zpos R) by (rewrite HD, Z.mul_comm; apply Z.div_mul; exact F0).
  apply (pocklington N a (leaves t)); try assumption; fold F.
  - exists (Zpos R). rewrite HD. ring.
  - replace (F ^ 3) with (F * F * F) by ring. exact H3.
  - rewrite HD, Z.mul_comm, Z.pow_mul_r by (clear - HF; lia). etransitivity; [|exact E1]. apply pow_mod_congr; [symmetry; exact PC|clear - HF; lia].
  - intros q Iq. destruct (EQ q Iq) as (Q0 & m & Em & M0 & G). apply G.
    assert (Eq : (N - 1) / q = Zpos R * m).
    { rewrite HD, Em. replace (q * m * Zpos R) with (Zpos R * m * q) by ring. apply Z.div_mul. clear - Q0. lia. }
    rewrite Eq, Z.pow_mul_r by (exact M0 || (clear; lia)). apply pow_mod_congr; [symmetry; exact PC|exact M0].
  - rewrite RE. replace (Zpos R mod F) with (Zpos R - Zpos R / F * F) by (rewrite (Z.mod_eq _ _ F0); ring).
    apply orb_prop in Hsq as [Hs|Hs]; [left; apply Z.eqb_eq; exact Hs|right]. apply not_square_spec. exact Hs.
Qed.

(** trial division *)
Definition trial (n : Z) : bool :=
  (1 <? n) && forallb (fun k => negb (n mod Z.of_nat k =? 0)) (seq 2 (Z.to_nat (Z.sqrt n) - 1)).
Theorem trial_spec n : trial n = true -> prime n.
Proof.
  unfold trial. intros H. apply andb_prop in H as [H1 H]. rewrite forallb_forall in H.
  destruct (prime_dec n) as [P|P]; [exact P|exfalso].
  apply not_prime_divide in P; [|lia]. destruct P as (m & Hm & k & Hk).
  assert (S : forall x, 1 < x -> x * x <= n -> (x | n) -> False).
  { intros x X1 X2 X3. assert (x <= Z.sqrt n) by (apply Z.sqrt_le_square; lia).
    specialize (H (Z.to_nat x)). rewrite in_seq in H. specialize (H ltac:(lia)). rewrite Z2Nat.id in H by lia.
    apply Z.mod_divide in X3; lia. }
  assert (1 < k) by nia.
  destruct (Z.leb_spec (m * m) n); [apply (S m); try lia; exists k; exact Hk|].
  apply (S k); try nia. exists m. lia.
Qed.
