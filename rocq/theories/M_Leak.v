(** A second model of the code that handles secrets, for what an observer of its running time could learn.

    The files [M_Util.v], [M_P256.v], ... say which results the code computes.  Here the same functions are written as
    programs over words of an arbitrary type [W].  A program cannot look at a word: the only ways to use one are the
    machine operations below, and the only ones that hand something other than words back to the program are the
    conditional jumps [Jump] and [Over].  Loop bounds, array indices and lengths are numbers of the program text or
    lengths of arrays, never words.  Running a program gives its result, which is proved to be the one of the first
    model, and its trace: every operation executed, every address used and the outcome of every jump, in order.

    Simplification: an operation on machine words (addition, multiplication, shift by a constant, ...) is taken to
    cost the same whatever its operands, and the compiler is taken to keep the jumps of the source. *)
From Verif Require Export M_P256 M_Util.

(** operations of one operand: shifts of any width, left shift and rotations and complement of [u32], casts to [n] bits,
    comparison with zero into a [bool] that is not branched on.
    src/crypto/p256.rs:331-335, 360-361, src/util.rs:36-40, src/crypto/chacha20.rs:34-46, src/crypto/poly1305.rs:175 *)
Inductive op1 := Shr (n : Z) | Shl (n : Z) | Rotl (n : Z) | Rotr (n : Z) | Not | Low (n : Z) | Eqz.
(** operations of two operands; [Add n], [Sub n], [Mul n] wrap at [n] bits.
    src/crypto/p256.rs:329, 344, 359, 379, 426, src/util.rs:34, src/crypto/poly1305.rs:37-84 *)
Inductive op2 := Xor | Or | And | Add (n : Z) | Sub (n : Z) | Mul (n : Z).
(** what the operations compute (same places) *)
Definition op1_val (o : op1) (x : Z) : Z :=
  match o with
  | Shr n => Z.shiftr x n
  | Shl n => wshl x n
  | Rotl n => rotate_left x n
  | Rotr n => rotate_right x n
  | Not => wnot x
  | Low n => Z.land x (2 ^ n - 1)
  | Eqz => if x =? 0 then 1 else 0
  end.
(** what the operations compute before wrapping (same places) *)
Definition op2_exact (o : op2) (x y : Z) : Z :=
  match o with
  | Xor => Z.lxor x y | Or => Z.lor x y | And => Z.land x y
  | Add _ => x + y | Sub _ => x - y | Mul _ => x * y
  end.
(** what the operations compute (same places) *)
Definition op2_val (o : op2) (x y : Z) : Z :=
  match o with
  | Xor | Or | And => op2_exact o x y
  | Add n | Sub n | Mul n => op2_exact o x y mod 2 ^ n
  end.
(** the overflow flag that a debug build tests after [+], [-], [*] (src/crypto/poly1305.rs:37-84) *)
Definition op2_over (o : op2) (x y : Z) : bool :=
  match o with
  | Xor | Or | And => false
  | Add n | Sub n | Mul n => negb ((0 <=? op2_exact o x y) && (op2_exact o x y <? 2 ^ n))
  end.
(** value of a slice of bytes, least significant first; [from_le_bytes], [read_u32_into] (src/crypto/poly1305.rs:18-24) *)
Fixpoint pack (l : list Z) : Z := match l with [] => 0 | b :: r => b + 256 * pack r end.

Section Programs.
Context {W : Type}.

(** programs that end with an [A] or panic *)
Inductive prog (A : Type) : Type :=
| Ret (a : A)
| Fail
| Const (z : Z) (k : W -> prog A)
| Un (o : op1) (x : W) (k : W -> prog A)
| Bin (o : op2) (x y : W) (k : W -> prog A)
| Load (a : list W) (i : nat) (k : W -> prog A)
| Store (a : list W) (i : nat) (x : W) (k : list W -> prog A)
| Copy (i j : nat) (k : prog A)
| Pack (be : bool) (l : list W) (k : W -> prog A)
| Unpack (be : bool) (n : nat) (x : W) (k : list W -> prog A)
| Jump (z : Z) (x : W) (k : bool -> prog A)
| Over (o : op2) (x y : W) (k : bool -> prog A).
Arguments Ret {A} _. Arguments Fail {A}. Arguments Const {A} _ _. Arguments Un {A} _ _ _. Arguments Bin {A} _ _ _ _.
Arguments Load {A} _ _ _. Arguments Store {A} _ _ _ _. Arguments Copy {A} _ _ _. Arguments Pack {A} _ _ _.
Arguments Unpack {A} _ _ _ _. Arguments Jump {A} _ _ _. Arguments Over {A} _ _ _ _.

(** sequencing *)
Fixpoint pbind {A B} (p : prog A) (f : A -> prog B) : prog B :=
  match p with
  | Ret a => f a
  | Fail => Fail
  | Const z k => Const z (fun w => pbind (k w) f)
  | Un o x k => Un o x (fun w => pbind (k w) f)
  | Bin o x y k => Bin o x y (fun w => pbind (k w) f)
  | Load a i k => Load a i (fun w => pbind (k w) f)
  | Store a i x k => Store a i x (fun l => pbind (k l) f)
  | Copy i j k => Copy i j (pbind k f)
  | Pack e l k => Pack e l (fun w => pbind (k w) f)
  | Unpack e n x k => Unpack e n x (fun l => pbind (k l) f)
  | Jump z x k => Jump z x (fun b => pbind (k b) f)
  | Over o x y k => Over o x y (fun b => pbind (k b) f)
  end.
End Programs.
Arguments prog : clear implicits.
Arguments Ret {W A} _. Arguments Fail {W A}. Arguments Const {W A} _ _. Arguments Un {W A} _ _ _. Arguments Bin {W A} _ _ _ _.
Arguments Load {W A} _ _ _. Arguments Store {W A} _ _ _ _. Arguments Copy {W A} _ _ _. Arguments Pack {W A} _ _ _.
Arguments Unpack {W A} _ _ _ _. Arguments Jump {W A} _ _ _. Arguments Over {W A} _ _ _ _.
Notation "'let!' p := e 'in' k" := (pbind e (fun p => k))
  (at level 200, p strict pattern, e at level 100, k at level 200, right associativity).

(** ** Running a program on machine words *)
(** what an observer may see: operations, addresses, outcomes of jumps *)
Inductive event :=
| EConst (z : Z) | EUn (o : op1) | EBin (o : op2) | ELoad (i : nat) | EStore (i : nat) | ECopy (i j : nat)
| EPack (n : nat) | EUnpack (n : nat) | EJump (b : bool) | EPanic.
(** the result; an index out of bounds panics *)
Fixpoint run {A} (p : prog Z A) : res A :=
  match p with
  | Ret a => Ok a
  | Fail => Panic
  | Const z k => run (k z)
  | Un o x k => run (k (op1_val o x))
  | Bin o x y k => run (k (op2_val o x y))
  | Load a i k => match nth_error a i with Some x => run (k x) | None => Panic end
  | Store a i x k => if (i <? length a)%nat then run (k (upd i x a)) else Panic
  | Copy _ _ k => run k
  | Pack be l k => run (k (pack (if be then rev l else l)))
  | Unpack be n x k => run (k (let l := map b2z (le n x) in if be then rev l else l))
  | Jump z x k => run (k (x =? z))
  | Over o x y k => run (k (op2_over o x y))
  end.
(** the trace *)
Fixpoint trace {A} (p : prog Z A) : list event :=
  match p with
  | Ret _ => []
  | Fail => [EPanic]
  | Const z k => EConst z :: trace (k z)
  | Un o x k => EUn o :: trace (k (op1_val o x))
  | Bin o x y k => EBin o :: trace (k (op2_val o x y))
  | Load a i k => match nth_error a i with Some x => ELoad i :: trace (k x) | None => [EPanic] end
  | Store a i x k => if (i <? length a)%nat then EStore i :: trace (k (upd i x a)) else [EPanic]
  | Copy i j k => ECopy i j :: trace k
  | Pack be l k => EPack (length l) :: trace (k (pack (if be then rev l else l)))
  | Unpack be n x k => EUnpack n :: trace (k (let l := map b2z (le n x) in if be then rev l else l))
  | Jump z x k => EJump (x =? z) :: trace (k (x =? z))
  | Over o x y k => EJump (op2_over o x y) :: trace (k (op2_over o x y))
  end.

Section Code.
Context {W : Type}.
(** ** Building blocks *)
Definition const (z : Z) : prog W W := Const z Ret.
Definition un (o : op1) (x : W) : prog W W := Un o x Ret.
Definition bin (o : op2) (x y : W) : prog W W := Bin o x y Ret.
Definition load (a : list W) (i : nat) : prog W W := Load a i Ret.
Definition store (i : nat) (x : W) (a : list W) : prog W (list W) := Store a i x Ret.
Definition jump (z : Z) (x : W) : prog W bool := Jump z x Ret.
(** [+], [-], [*] outside [Wrapping]: tested in debug builds, wrapping in release builds (src/crypto/poly1305.rs:37-84) *)
Definition checked (m : mode) (o : op2) (x y : W) : prog W W :=
  match m with
  | Release => bin o x y
  | Debug => Over o x y (fun b => if b then Fail else bin o x y)
  end.
(** [for i in l] with a state *)
Fixpoint foldp {S I} (f : S -> I -> prog W S) (l : list I) (s : S) : prog W S :=
  match l with [] => Ret s | i :: l' => let! s' := f s i in foldp f l' s' end.
(** array literals *)
Fixpoint consts (l : list Z) : prog W (list W) :=
  match l with [] => Ret [] | z :: l' => let! w := const z in let! r := consts l' in Ret (w :: r) end.

(** ** src/util.rs *)
(** src/util.rs:29-41 [crypto_compare]; the [bool] it returns is the word 1 or 0 *)
Definition t_crypto_compare (m : mode) (a b : list W) : prog W W :=
  let! _ := match m with Debug => if Nat.eqb (length a) (length b) then Ret tt else Fail | Release => Ret tt end in
  let! diff := const 0 in
  let! diff := foldp (fun diff i => let! x := load a i in let! y := load b i in let! e := bin Xor x y in bin Or diff e)
                 (seq 0 (length a)) diff in
  let! s := un (Shr 4) diff in let! diff := bin Or diff s in
  let! s := un (Shr 2) diff in let! diff := bin Or diff s in
  let! s := un (Shr 1) diff in let! diff := bin Or diff s in
  let! one := const 1 in let! diff := bin And diff one in
  un Eqz diff.

(** ** src/crypto/p256.rs *)
(** p256.rs:326-337 [compare] *)
Definition t_compare (a b : list W) : prog W W :=
  let! diff := const 0 in
  let! diff := foldp (fun diff i => let! x := load a i in let! y := load b i in let! e := bin Xor x y in bin Or diff e)
                 (seq 0 8) diff in
  let! s := un (Shr 16) diff in let! diff := bin Or diff s in
  let! s := un (Shr 8) diff in let! diff := bin Or diff s in
  let! s := un (Shr 4) diff in let! diff := bin Or diff s in
  let! s := un (Shr 2) diff in let! diff := bin Or diff s in
  let! s := un (Shr 1) diff in let! diff := bin Or diff s in
  let! one := const 1 in bin And diff one.

(** p256.rs:341-347 [choose] *)
Definition t_choose (flag : W) (a b : list W) : prog W (list W) :=
  let! v := consts ZERO in
  foldp (fun v i =>
    let! x := load a i in let! x' := load a i in let! y := load b i in
    let! e := bin Xor x' y in let! e := bin (Mul 32) flag e in let! e := bin Xor x e in
    store i e v) (seq 0 8) v.

(** p256.rs:353-365 [add_no_reduce] *)
Definition t_add_no_reduce (a b : list W) : prog W (list W * W) :=
  let! v := consts ZERO in
  let! carry := const 0 in
  let! (v, carry) := foldp (fun '(v, carry) i =>
    let! x := load a i in let! y := load b i in
    let! s := bin (Add 64) x y in let! add := bin (Add 64) s carry in
    let! l := un (Low 32) add in let! v := store i l v in
    let! carry := un (Shr 32) add in Ret (v, carry)) (seq 0 8) (v, carry) in
  let! carry := un (Low 32) carry in
  Ret (v, carry).

(** p256.rs:371-387 [sub_no_reduce] *)
Definition t_sub_no_reduce (a b : list W) : prog W (list W * W) :=
  let! v := consts ZERO in
  let! carry := const 0 in
  let! (v, carry) := foldp (fun '(v, carry) i =>
    let! x := load a i in let! y := load b i in
    let! s := bin (Sub 64) x y in let! sub := bin (Sub 64) s carry in
    let! carry := un (Shr 63) sub in
    let! l := un (Low 32) sub in let! v := store i l v in
    Ret (v, carry)) (seq 0 8) (v, carry) in
  let! carry := un (Low 32) carry in
  Ret (v, carry).

(** [debug_assert!(!(x.0 == 0 && y.0 == 1))]: [&&] evaluates its right side only if the left side holds (p256.rs:394, 417) *)
Definition t_not_0_1 (m : mode) (x y : W) : prog W unit :=
  match m with
  | Release => Ret tt
  | Debug => let! c := jump 0 x in if c then let! d := jump 1 y in if d then Fail else Ret tt else Ret tt
  end.

(** p256.rs:392-397 [reduce_once] *)
Definition t_reduce_once (m : mode) (a : list W) (carry : W) : prog W (list W) :=
  let! p := consts P256 in
  let! (v, carry_sub) := t_sub_no_reduce a p in
  let! _ := t_not_0_1 m carry_sub carry in
  let! choose_new := bin Xor carry carry_sub in
  t_choose choose_new v a.
(** p256.rs:399-401 [reduce_once_zero] *)
Definition t_reduce_once_zero (m : mode) (a : list W) : prog W (list W) :=
  let! z := const 0 in t_reduce_once m a z.

(** p256.rs:403-406 [add] *)
Definition t_add (m : mode) (a b : list W) : prog W (list W) :=
  let! (v, carry) := t_add_no_reduce a b in t_reduce_once m v carry.
(** p256.rs:408-411 [double] *)
Definition t_double (m : mode) (a : list W) : prog W (list W) := t_add m a a.

(** p256.rs:413-419 [sub] *)
Definition t_sub (m : mode) (a b : list W) : prog W (list W) :=
  let! (v, carry_sub) := t_sub_no_reduce a b in
  let! p := consts P256 in
  let! (v2, carry_add) := t_add_no_reduce v p in
  let! _ := t_not_0_1 m carry_add carry_sub in
  t_choose carry_sub v v2.

(** p256.rs:423-435: the body of the double loop of [mult] *)
Definition t_mul_step (a b : list W) (w : list W) (ij : nat * nat) : prog W (list W) :=
  let '(i, j) := ij in
  let! x := load a i in let! y := load b j in
  let! v_ij := bin (Mul 64) x y in
  let! v_ij_low := un (Low 32) v_ij in
  let! v_ij_high := un (Shr 32) v_ij in
  let! z := load w (i + j) in
  let! w_ij := bin (Add 64) z v_ij_low in
  let! w_ij_low := un (Low 32) w_ij in
  let! h := un (Shr 32) w_ij in
  let! w_ij_high := bin (Add 64) v_ij_high h in
  let! w := store (i + j) w_ij_low w in
  let! z := load w (i + j + 1) in
  let! z := bin (Add 64) z w_ij_high in
  store (i + j + 1) z w.
(** p256.rs:437-443: carry propagation *)
Definition t_carry_step (w : list W) (st : list W * W) (i : nat) : prog W (list W * W) :=
  let '(v, carry) := st in
  let! x := load w i in
  let! a := bin (Add 64) x carry in
  let! l := un (Low 32) a in
  let! v := store i l v in
  let! carry := un (Shr 32) a in
  Ret (v, carry).
(** [buf.v[i..j].clone_from_slice(&v[k..l])] (p256.rs:447-494) *)
Definition t_blit (i j : nat) (v : list W) (k l : nat) (buf : list W) : prog W (list W) :=
  Copy i j (Copy k l (Ret (firstn i buf ++ firstn (l - k) (skipn k v) ++ skipn j buf))).
(** [buf.v[i] = v[k]] (p256.rs:461-495) *)
Definition t_move (i : nat) (v : list W) (k : nat) (buf : list W) : prog W (list W) :=
  let! x := load v k in store i x buf.
(** p256.rs:446-501: reduction of the sixteen limbs [v] *)
Definition t_nist_reduce (m : mode) (v : list W) : prog W (list W) :=
  let! buf := consts ZERO in
  let! buf := t_blit 0 8 v 0 8 buf in
  let! t := t_reduce_once_zero m buf in
  let! buf := consts ZERO in
  let! buf := t_blit 3 8 v 11 16 buf in
  let! s1 := t_reduce_once_zero m buf in
  let! buf := consts ZERO in
  let! buf := t_blit 3 7 v 12 16 buf in
  let! s2 := t_reduce_once_zero m buf in
  let! buf := consts ZERO in
  let! buf := t_blit 0 3 v 8 11 buf in
  let! buf := t_move 6 v 14 buf in
  let! buf := t_move 7 v 15 buf in
  let! s3 := t_reduce_once_zero m buf in
  let! buf := consts ZERO in
  let! buf := t_blit 0 3 v 9 12 buf in
  let! buf := t_blit 3 6 v 13 16 buf in
  let! buf := t_move 6 v 13 buf in
  let! buf := t_move 7 v 8 buf in
  let! s4 := t_reduce_once_zero m buf in
  let! buf := consts ZERO in
  let! buf := t_blit 0 3 v 11 14 buf in
  let! buf := t_move 6 v 8 buf in
  let! buf := t_move 7 v 10 buf in
  let! d1 := t_reduce_once_zero m buf in
  let! buf := consts ZERO in
  let! buf := t_blit 0 4 v 12 16 buf in
  let! buf := t_move 6 v 9 buf in
  let! buf := t_move 7 v 11 buf in
  let! d2 := t_reduce_once_zero m buf in
  let! buf := consts ZERO in
  let! buf := t_blit 0 3 v 13 16 buf in
  let! buf := t_blit 3 6 v 8 11 buf in
  let! buf := foldp (fun buf i => let! buf := t_move i v (i + 13) buf in t_move (i + 3) v (i + 8) buf) (seq 0 3) buf in
  let! buf := t_move 7 v 12 buf in
  let! d3 := t_reduce_once_zero m buf in
  let! buf := consts ZERO in
  let! buf := t_blit 3 6 v 9 12 buf in
  let! buf := t_move 7 v 13 buf in
  let! buf := t_move 0 v 14 buf in
  let! buf := t_move 1 v 15 buf in
  let! d4 := t_reduce_once_zero m buf in
  let! ds1 := t_double m s1 in
  let! r := t_add m t ds1 in
  let! ds2 := t_double m s2 in
  let! r := t_add m r ds2 in
  let! r := t_add m r s3 in
  let! r := t_add m r s4 in
  let! d := t_add m d1 d2 in
  let! d := t_add m d d3 in
  let! d := t_add m d d4 in
  t_sub m r d.
(** p256.rs:421-502 [mult]; [debug_assert_eq!(carry.0, 0)] *)
Definition t_mult (m : mode) (a b : list W) : prog W (list W) :=
  let! w := consts (repeat 0 16) in
  let! w := foldp (t_mul_step a b) ijs w in
  let! v := consts (repeat 0 16) in
  let! carry := const 0 in
  let! (v, carry) := foldp (t_carry_step w) (seq 0 16) (v, carry) in
  let! _ := match m with Debug => let! c := jump 0 carry in if c then Ret tt else Fail | Release => Ret tt end in
  t_nist_reduce m v.
(** p256.rs:504-507 [square] *)
Definition t_square (m : mode) (a : list W) : prog W (list W) := t_mult m a a.

(** p256.rs:517-523 [square_n] *)
Definition t_square_n (m : mode) (a : list W) (n : nat) : prog W (list W) :=
  foldp (fun y (_ : nat) => t_square m y) (seq 0 n) a.
(** p256.rs:527-530 [z_n] *)
Definition t_z_n (m : mode) (z : list W) (n : nat) : prog W (list W) := let! y := t_square_n m z n in t_mult m y z.
(** p256.rs:533-535 [z_1] *)
Definition t_z_1 (m : mode) (z a : list W) : prog W (list W) := let! y := t_square m z in t_mult m y a.
(** p256.rs:510-567 [inverse] *)
Definition t_inverse (m : mode) (a : list W) : prog W (list W) :=
  let! z2 := t_z_n m a 1 in
  let! z4 := t_z_n m z2 2 in
  let! z8 := t_z_n m z4 4 in
  let! z16 := t_z_n m z8 8 in
  let! z32 := t_z_n m z16 16 in
  let! z5 := t_z_1 m z4 a in
  let! z10 := t_z_n m z5 5 in
  let! z11 := t_z_1 m z10 a in
  let! z22 := t_z_n m z11 11 in
  let! z23 := t_z_1 m z22 a in
  let! z46 := t_z_n m z23 23 in
  let! z47 := t_z_1 m z46 a in
  let! z94 := t_z_n m z47 47 in
  let! z95 := t_z_1 m z94 a in
  let! y96_2 := t_square m z95 in
  let! z96 := t_mult m y96_2 a in
  let! z192 := t_z_n m z96 96 in
  let! y256_224 := t_square_n m z32 224 in
  let! r := t_mult m y256_224 z192 in
  t_mult m r y96_2.

(** p256.rs:572-576, 580-582: the loop of [divide_by_2] *)
Definition t_half_step (a : list W) (v : list W) (i : nat) : prog W (list W) :=
  let! x := load a i in
  let! x := un (Shr 1) x in
  let! y := load a (i + 1) in
  let! one := const 1 in
  let! y := bin And y one in
  let! y := un (Shl 31) y in
  let! x := bin Or x y in
  store i x v.
(** p256.rs:569-587 [divide_by_2] *)
Definition t_divide_by_2 (a : list W) : prog W (list W) :=
  let! x := load a 0 in
  let! one := const 1 in
  let! is_odd := bin And x one in
  let! half_even := consts ZERO in
  let! half_even := foldp (t_half_step a) (seq 0 7) half_even in
  let! x := load a 7 in
  let! x := un (Shr 1) x in
  let! half_even := store 7 x half_even in
  let! half_odd := consts ZERO in
  let! p := consts P256 in
  let! (self_p, carry) := t_add_no_reduce a p in
  let! half_odd := foldp (t_half_step self_p) (seq 0 7) half_odd in
  let! x := load self_p 7 in
  let! x := un (Shr 1) x in
  let! y := un (Shl 31) carry in
  let! x := bin Or x y in
  let! half_odd := store 7 x half_odd in
  t_choose is_odd half_even half_odd.

(** p256.rs:590-600 [to_bytes] *)
Definition t_to_bytes (a : list W) : prog W (list W) :=
  let! b := consts (repeat 0 32) in
  foldp (fun b ij => let '(i, j) := ij in
    let! v := load a (7 - i) in
    let! v := un (Shr (Z.of_nat ((3 - j) * 8))) v in
    let! v := un (Low 8) v in
    store (i * 4 + j) v b) (list_prod (seq 0 8) (seq 0 4)) b.

(** p256.rs:12-17 *)
Record tpoint := TPoint { tx : list W; ty : list W; tz : list W }.
(** p256.rs:60-64 *)
Definition t_INFTY : prog W tpoint :=
  let! x := consts ONE in let! y := consts ONE in let! z := consts ZERO in Ret (TPoint x y z).

(** p256.rs:77-84 [normalize] *)
Definition t_normalize (m : mode) (p : tpoint) : prog W (list W * list W) :=
  let! z2 := t_square m (tz p) in
  let! z3 := t_mult m (tz p) z2 in
  let! z2i := t_inverse m z2 in
  let! x := t_mult m (tx p) z2i in
  let! z3i := t_inverse m z3 in
  let! y := t_mult m (ty p) z3i in
  Ret (x, y).

(** p256.rs:86-92 [choose] *)
Definition t_pchoose (flag : W) (a b : tpoint) : prog W tpoint :=
  let! x := t_choose flag (tx a) (tx b) in
  let! y := t_choose flag (ty a) (ty b) in
  let! z := t_choose flag (tz a) (tz b) in
  Ret (TPoint x y z).

(** p256.rs:96-142 [double] *)
Definition t_pdouble (m : mode) (p : tpoint) : prog W tpoint :=
  let! z2 := t_square m (tz p) in
  let! y2 := t_square m (ty p) in
  let! x_sub_z2 := t_sub m (tx p) z2 in
  let! x_add_z2 := t_add m (tx p) z2 in
  let! mul := t_mult m x_add_z2 x_sub_z2 in
  let! a := t_add m mul mul in
  let! a := t_add m a mul in
  let! b := t_mult m (tx p) y2 in
  let! b2 := t_add m b b in
  let! b4 := t_add m b2 b2 in
  let! b8 := t_add m b4 b4 in
  let! aa := t_square m a in
  let! x_new := t_sub m aa b8 in
  let! y4 := t_square m y2 in
  let! y4_2 := t_add m y4 y4 in
  let! y4_4 := t_add m y4_2 y4_2 in
  let! y4_8 := t_add m y4_4 y4_4 in
  let! t := t_sub m b4 x_new in
  let! t := t_mult m a t in
  let! y_new := t_sub m t y4_8 in
  let! s := t_add m (ty p) (tz p) in
  let! s := t_square m s in
  let! u := t_add m z2 y2 in
  let! z_new := t_sub m s u in
  let! zero := consts ZERO in
  let! self_not_infty := t_compare (tz p) zero in
  let! infty := t_INFTY in
  t_pchoose self_not_infty infty (TPoint x_new y_new z_new).

(** p256.rs:144-206 [add] *)
Definition t_padd (m : mode) (p q : tpoint) : prog W tpoint :=
  let! zero := consts ZERO in
  let! self_is_zero := t_compare (tz p) zero in
  let! zero := consts ZERO in
  let! b_is_zero := t_compare (tz q) zero in
  let! z2 := t_square m (tz p) in
  let! z3 := t_mult m (tz p) z2 in
  let! bz2 := t_square m (tz q) in
  let! bz3 := t_mult m (tz q) bz2 in
  let! x := t_mult m (tx p) bz2 in
  let! y := t_mult m (ty p) bz3 in
  let! bx := t_mult m (tx q) z2 in
  let! by_ := t_mult m (ty q) z3 in
  let! xdiff := t_sub m x bx in
  let! xdiff2 := t_square m xdiff in
  let! xdiff3 := t_mult m xdiff xdiff2 in
  let! ydiff := t_sub m y by_ in
  let! ydiff2 := t_square m ydiff in
  let! xsum := t_add m x bx in
  let! ysum := t_add m y by_ in
  let! e := t_mult m xsum xdiff2 in
  let! x_new := t_sub m ydiff2 e in
  let! x_new_2 := t_add m x_new x_new in
  let! t4 := t_mult m ysum xdiff3 in
  let! t5 := t_sub m e x_new_2 in
  let! t5 := t_mult m ydiff t5 in
  let! t := t_sub m t5 t4 in
  let! y_new := t_divide_by_2 t in
  let! z_new := t_mult m (tz p) (tz q) in
  let! z_new := t_mult m z_new xdiff in
  let! zero := consts ZERO in
  let! xdiff_nonzero := t_compare xdiff zero in
  let! zero := consts ZERO in
  let! ydiff_nonzero := t_compare ydiff zero in
  let! dbl := t_pdouble m p in
  let! f := bin Or xdiff_nonzero ydiff_nonzero in
  let! ret := t_pchoose f dbl (TPoint x_new y_new z_new) in
  let! one := const 1 in
  let! f := bin (Sub 32) one ydiff_nonzero in
  let! f := bin Or xdiff_nonzero f in
  let! infty := t_INFTY in
  let! ret := t_pchoose f infty ret in
  let! ret := t_pchoose self_is_zero q ret in
  t_pchoose b_is_zero p ret.

(** p256.rs:212-217: the loop body of [mult_scalar] *)
Definition t_scalar_step (m : mode) (p : tpoint) (n : list W) (ret : tpoint) (ij : nat * nat) : prog W tpoint :=
  let '(i, j) := ij in
  let! x := load n i in
  let! x := un (Shr (Z.of_nat j)) x in
  let! one := const 1 in
  let! bit := bin And x one in
  let! ret2 := t_pdouble m ret in
  let! ret3 := t_padd m ret2 p in
  t_pchoose bit ret2 ret3.
(** p256.rs:208-222 [mult_scalar] *)
Definition t_mult_scalar (m : mode) (p : tpoint) (n : list W) : prog W tpoint :=
  let! ret := t_INFTY in
  foldp (t_scalar_step m p n) scalar_ijs ret.
(** src/cipher/ecdhe.rs:149-157: from the private scalar and the peer's point (with [z = 1]) to the coordinates of the public
    value and the bytes of the pre-master secret *)
Definition t_exchange (m : mode) (gx gy : list W) (qx qy : list W) (n : list W) : prog W (list W * list W * list W) :=
  let! one := consts ONE in
  let! p := t_mult_scalar m (TPoint gx gy one) n in
  let! (x, y) := t_normalize m p in
  let! x := t_to_bytes x in
  let! y := t_to_bytes y in
  let! one := consts ONE in
  let! p := t_mult_scalar m (TPoint qx qy one) n in
  let! (s, _) := t_normalize m p in
  let! s := t_to_bytes s in
  Ret (x, y, s).
End Code.
Arguments tpoint : clear implicits.
