(** Model of src/crypto/p256.rs and the part of src/crypto/wrapping.rs it uses.
    [Wrapping<u32>] and [Wrapping<u64>] arithmetic wraps in every build, so only [debug_assert!] depends on the
    mode.  [Int256] is its list of eight limbs, least significant first; arrays have their Rust length in every
    value the code can build.  [Copy]/[Clone] are identities. *)
From Verif Require Export M_Word.

(** [Wrapping<u64>] addition, subtraction, multiplication, src/crypto/wrapping.rs:6, 28-53 *)
Definition w64 (x : Z) : Z := x mod 2 ^ 64.
(** [Wrapping<u32>] multiplication, src/crypto/wrapping.rs:6, 28-53 *)
Definition wmul (a b : Z) : Z := (a * b) mod 2 ^ 32.
(** [Wrapping<u32>] subtraction, src/crypto/wrapping.rs:6, 28-53 *)
Definition wsub (a b : Z) : Z := (a - b) mod 2 ^ 32.
(** src/crypto/wrapping.rs:15-26 [to_w32], [to_w8]: mask and cast *)
Definition to_w32 (x : Z) : Z := Z.land x (2 ^ 32 - 1).
(** src/crypto/wrapping.rs:15-26, 43 [to_w8] *)
Definition to_w8 (x : Z) : byte := z2b (Z.land x (2 ^ 8 - 1)).

(** ** int256, src/crypto/p256.rs:286-619 *)
(** p256.rs:295-297 *)
Definition int256 := list Z.
(** p256.rs:300-315 *)
Definition P256 : int256 := [0xffffffff; 0xffffffff; 0xffffffff; 0; 0; 0; 1; 0xffffffff].
(** p256.rs:312 *)
Definition ZERO : int256 := [0; 0; 0; 0; 0; 0; 0; 0].
(** p256.rs:313-315 *)
Definition ONE : int256 := [1; 0; 0; 0; 0; 0; 0; 0].

(** p256.rs:326-337 [compare] *)
Definition icompare (a b : int256) : Z :=
  let diff := fold_left (fun d i => Z.lor d (Z.lxor (at_ a i) (at_ b i))) (seq 0 8) 0 in
  let diff := Z.lor diff (wshr diff 16) in
  let diff := Z.lor diff (wshr diff 8) in
  let diff := Z.lor diff (wshr diff 4) in
  let diff := Z.lor diff (wshr diff 2) in
  let diff := Z.lor diff (wshr diff 1) in
  Z.land diff 1.

(** p256.rs:341-347 [choose] *)
Definition ichoose (flag : Z) (a b : int256) : int256 :=
  fold_left (fun v i => upd i (Z.lxor (at_ a i) (wmul flag (Z.lxor (at_ a i) (at_ b i)))) v) (seq 0 8) ZERO.

(** p256.rs:353-365 [add_no_reduce] *)
Definition add_step (a b : int256) (st : int256 * Z) (i : nat) : int256 * Z :=
  let '(v, carry) := st in
  let add := w64 (w64 (at_ a i + at_ b i) + carry) in
  (upd i (to_w32 add) v, Z.shiftr add 32).
(** p256.rs:353-365 *)
Definition add_no_reduce (a b : int256) : int256 * Z :=
  let '(v, carry) := fold_left (add_step a b) (seq 0 8) (ZERO, 0) in (v, to_w32 carry).

(** p256.rs:371-387 [sub_no_reduce] *)
Definition sub_step (a b : int256) (st : int256 * Z) (i : nat) : int256 * Z :=
  let '(v, carry) := st in
  let sub := w64 (w64 (at_ a i - at_ b i) - carry) in
  (upd i (to_w32 sub) v, Z.shiftr sub 63).
(** p256.rs:371-387 *)
Definition sub_no_reduce (a b : int256) : int256 * Z :=
  let '(v, carry) := fold_left (sub_step a b) (seq 0 8) (ZERO, 0) in (v, to_w32 carry).

(** p256.rs:392-401 [reduce_once], [reduce_once_zero] *)
Definition reduce_once (m : mode) (a : int256) (carry : Z) : res int256 :=
  let '(v, carry_sub) := sub_no_reduce a P256 in
  let* _ := dassert m (negb ((carry_sub =? 0) && (carry =? 1))) in
  let choose_new := Z.lxor carry carry_sub in
  Ok (ichoose choose_new v a).
(** p256.rs:399-401 [reduce_once_zero] *)
Definition reduce_once_zero (m : mode) (a : int256) : res int256 := reduce_once m a 0.

(** p256.rs:403-411 [add], [double] *)
Definition iadd (m : mode) (a b : int256) : res int256 :=
  let '(v, carry) := add_no_reduce a b in reduce_once m v carry.
(** p256.rs:408-411 [double] *)
Definition idouble (m : mode) (a : int256) : res int256 := iadd m a a.

(** p256.rs:413-419 [sub] *)
Definition isub (m : mode) (a b : int256) : res int256 :=
  let '(v, carry_sub) := sub_no_reduce a b in
  let '(v2, carry_add) := add_no_reduce v P256 in
  let* _ := dassert m (negb ((carry_add =? 0) && (carry_sub =? 1))) in
  Ok (ichoose carry_sub v v2).

(** p256.rs:423-435: the body of the double loop of [mult] *)
Definition mul_step (a b : int256) (w : list Z) (ij : nat * nat) : list Z :=
  let '(i, j) := ij in
  let v_ij := w64 (at_ a i * at_ b j) in
  let v_ij_low := to_w32 v_ij in
  let v_ij_high := Z.shiftr v_ij 32 in
  let w_ij := w64 (at_ w (i + j) + v_ij_low) in
  let w_ij_low := to_w32 w_ij in
  let w_ij_high := w64 (v_ij_high + Z.shiftr w_ij 32) in
  let w := upd (i + j) w_ij_low w in
  upd (i + j + 1) (w64 (at_ w (i + j + 1) + w_ij_high)) w.
(** p256.rs:423-424: the index pairs of the double loop, in order *)
Definition ijs : list (nat * nat) := list_prod (seq 0 8) (seq 0 8).
(** p256.rs:437-443: carry propagation *)
Definition carry_step (w : list Z) (st : list Z * Z) (i : nat) : list Z * Z :=
  let '(v, carry) := st in
  let a := w64 (at_ w i + carry) in
  (upd i (to_w32 a) v, Z.shiftr a 32).
(** [buf.v[i..j].clone_from_slice(src)], the two lengths being equal in every use (p256.rs:447-494) *)
Definition blit (i j : nat) (src buf : list Z) : list Z := firstn i buf ++ src ++ skipn j buf.
(** [&v[i..j]], used by the slices of p256.rs:447-494 *)
Definition sub_ (v : list Z) (i j : nat) : list Z := firstn (j - i) (skipn i v).

(** p256.rs:446-501: reduction of the sixteen limbs [v] *)
Definition nist_reduce (m : mode) (v : list Z) : res int256 :=
  let* t := reduce_once_zero m (blit 0 8 (sub_ v 0 8) ZERO) in
  let* s1 := reduce_once_zero m (blit 3 8 (sub_ v 11 16) ZERO) in
  let* s2 := reduce_once_zero m (blit 3 7 (sub_ v 12 16) ZERO) in
  let* s3 := reduce_once_zero m (upd 7 (at_ v 15) (upd 6 (at_ v 14) (blit 0 3 (sub_ v 8 11) ZERO))) in
  let* s4 := reduce_once_zero m
    (upd 7 (at_ v 8) (upd 6 (at_ v 13) (blit 3 6 (sub_ v 13 16) (blit 0 3 (sub_ v 9 12) ZERO)))) in
  let* d1 := reduce_once_zero m (upd 7 (at_ v 10) (upd 6 (at_ v 8) (blit 0 3 (sub_ v 11 14) ZERO))) in
  let* d2 := reduce_once_zero m (upd 7 (at_ v 11) (upd 6 (at_ v 9) (blit 0 4 (sub_ v 12 16) ZERO))) in
  let* d3 := reduce_once_zero m
    (upd 7 (at_ v 12)
       (fold_left (fun buf i => upd (i + 3) (at_ v (i + 8)) (upd i (at_ v (i + 13)) buf)) (seq 0 3)
          (blit 3 6 (sub_ v 8 11) (blit 0 3 (sub_ v 13 16) ZERO)))) in
  let* d4 := reduce_once_zero m (upd 1 (at_ v 15) (upd 0 (at_ v 14) (upd 7 (at_ v 13) (blit 3 6 (sub_ v 9 12) ZERO)))) in
  let* ds1 := idouble m s1 in
  let* r := iadd m t ds1 in
  let* ds2 := idouble m s2 in
  let* r := iadd m r ds2 in
  let* r := iadd m r s3 in
  let* r := iadd m r s4 in
  let* d := iadd m d1 d2 in
  let* d := iadd m d d3 in
  let* d := iadd m d d4 in
  isub m r d.

(** p256.rs:421-507 [mult], [square] *)
Definition imult (m : mode) (a b : int256) : res int256 :=
  let w := fold_left (mul_step a b) ijs (repeat 0 16) in
  let '(v, carry) := fold_left (carry_step w) (seq 0 16) (repeat 0 16, 0) in
  let* _ := dassert m (carry =? 0) in
  nist_reduce m v.
(** p256.rs:504-507 [square] *)
Definition isquare (m : mode) (a : int256) : res int256 := imult m a a.

(** p256.rs:517-535: the local functions of [inverse] *)
Fixpoint square_n (m : mode) (a : int256) (n : nat) : res int256 :=
  match n with O => Ok a | S n => let* y := isquare m a in square_n m y n end.
(** p256.rs:527-530 [z_n] *)
Definition z_n (m : mode) (z : int256) (n : nat) : res int256 :=
  let* y := square_n m z n in imult m y z.
(** p256.rs:533-535 [z_1] *)
Definition z_1 (m : mode) (z a : int256) : res int256 :=
  let* y := isquare m z in imult m y a.
(** p256.rs:510-567 [inverse] *)
Definition iinverse (m : mode) (a : int256) : res int256 :=
  let* z2 := z_n m a 1 in
  let* z4 := z_n m z2 2 in
  let* z8 := z_n m z4 4 in
  let* z16 := z_n m z8 8 in
  let* z32 := z_n m z16 16 in
  let* z5 := z_1 m z4 a in
  let* z10 := z_n m z5 5 in
  let* z11 := z_1 m z10 a in
  let* z22 := z_n m z11 11 in
  let* z23 := z_1 m z22 a in
  let* z46 := z_n m z23 23 in
  let* z47 := z_1 m z46 a in
  let* z94 := z_n m z47 47 in
  let* z95 := z_1 m z94 a in
  let* y96_2 := isquare m z95 in
  let* z96 := imult m y96_2 a in
  let* z192 := z_n m z96 96 in
  let* y256_224 := square_n m z32 224 in
  let* r := imult m y256_224 z192 in
  imult m r y96_2.

(** p256.rs:569-587 [divide_by_2] *)
Definition half_step (a : int256) (v : int256) (i : nat) : int256 :=
  upd i (Z.lor (wshr (at_ a i) 1) (wshl (Z.land (at_ a (i + 1)) 1) 31)) v.
(** p256.rs:569-587 *)
Definition divide_by_2 (a : int256) : int256 :=
  let is_odd := Z.land (at_ a 0) 1 in
  let half_even := upd 7 (wshr (at_ a 7) 1) (fold_left (half_step a) (seq 0 7) ZERO) in
  let '(self_p, carry) := add_no_reduce a P256 in
  let half_odd := upd 7 (Z.lor (wshr (at_ self_p 7) 1) (wshl carry 31)) (fold_left (half_step self_p) (seq 0 7) ZERO) in
  ichoose is_odd half_even half_odd.

(** p256.rs:590-600 [to_bytes] *)
Definition to_bytes (a : int256) : bytes :=
  fold_left (fun b ij => let '(i, j) := ij in
               upd (i * 4 + j) (to_w8 (wshr (at_ a (7 - i)) (Z.of_nat ((3 - j) * 8)))) b)
            (list_prod (seq 0 8) (seq 0 4)) (zeros 32).

(** p256.rs:603-618 [from_bytes] *)
Definition from_bytes (b : bytes) : option int256 :=
  if negb (zlen b =? 32) then None
  else Some (fold_left (fun x i =>
               let vi := fold_left (fun vi j => Z.lor vi (wshl (b2z (nth (i * 4 + j) b x00)) (Z.of_nat ((3 - j) * 8)))) (seq 0 4) 0 in
               upd (7 - i) vi x) (seq 0 8) ZERO).

(** ** Points *)
(** p256.rs:12-17 *)
Record point := Point { px : int256; py : int256; pz : int256 }.
(** p256.rs:226-229 *)
Record npoint := NPoint { nx : int256; ny : int256 }.
(** p256.rs:19-64 *)
Definition G : point :=
  Point [0xd898c296; 0xf4a13945; 0x2deb33a0; 0x77037d81; 0x63a440f2; 0xf8bce6e5; 0xe12c4247; 0x6b17d1f2]
        [0x37bf51f5; 0xcbb64068; 0x6b315ece; 0x2bce3357; 0x7c0f9e16; 0x8ee7eb4a; 0xfe1a7f9b; 0x4fe342e2] ONE.
(** p256.rs:47-58 *)
Definition B : int256 := [0x27d2604b; 0x3bce3c3e; 0xcc53b0f6; 0x651d06b0; 0x769886bc; 0xb3ebbd55; 0xaa3a93e7; 0x5ac635d8].
(** p256.rs:60-64 *)
Definition INFTY : point := Point ONE ONE ZERO.

(** p256.rs:77-84 [normalize] *)
Definition normalize (m : mode) (p : point) : res npoint :=
  let* z2 := isquare m (pz p) in
  let* z3 := imult m (pz p) z2 in
  let* z2i := iinverse m z2 in
  let* x := imult m (px p) z2i in
  let* z3i := iinverse m z3 in
  let* y := imult m (py p) z3i in
  Ok (NPoint x y).

(** p256.rs:86-92 [choose] *)
Definition pchoose (flag : Z) (a b : point) : point :=
  Point (ichoose flag (px a) (px b)) (ichoose flag (py a) (py b)) (ichoose flag (pz a) (pz b)).

(** p256.rs:96-142 [double] *)
Definition pdouble (m : mode) (p : point) : res point :=
  let* z2 := isquare m (pz p) in
  let* y2 := isquare m (py p) in
  let* x_sub_z2 := isub m (px p) z2 in
  let* x_add_z2 := iadd m (px p) z2 in
  let* mul := imult m x_add_z2 x_sub_z2 in
  let* a := iadd m mul mul in
  let* a := iadd m a mul in
  let* b := imult m (px p) y2 in
  let* b2 := iadd m b b in
  let* b4 := iadd m b2 b2 in
  let* b8 := iadd m b4 b4 in
  let* aa := isquare m a in
  let* x_new := isub m aa b8 in
  let* y4 := isquare m y2 in
  let* y4_2 := iadd m y4 y4 in
  let* y4_4 := iadd m y4_2 y4_2 in
  let* y4_8 := iadd m y4_4 y4_4 in
  let* t := isub m b4 x_new in
  let* t := imult m a t in
  let* y_new := isub m t y4_8 in
  let* s := iadd m (py p) (pz p) in
  let* s := isquare m s in
  let* u := iadd m z2 y2 in
  let* z_new := isub m s u in
  let ret := Point x_new y_new z_new in
  let self_not_infty := icompare (pz p) ZERO in
  Ok (pchoose self_not_infty INFTY ret).

(** p256.rs:144-206 [add] *)
Definition ppadd (m : mode) (p q : point) : res point :=
  let self_is_zero := icompare (pz p) ZERO in
  let b_is_zero := icompare (pz q) ZERO in
  let* z2 := isquare m (pz p) in
  let* z3 := imult m (pz p) z2 in
  let* bz2 := isquare m (pz q) in
  let* bz3 := imult m (pz q) bz2 in
  let* x := imult m (px p) bz2 in
  let* y := imult m (py p) bz3 in
  let* bx := imult m (px q) z2 in
  let* by_ := imult m (py q) z3 in
  let* xdiff := isub m x bx in
  let* xdiff2 := isquare m xdiff in
  let* xdiff3 := imult m xdiff xdiff2 in
  let* ydiff := isub m y by_ in
  let* ydiff2 := isquare m ydiff in
  let* xsum := iadd m x bx in
  let* ysum := iadd m y by_ in
  let* e := imult m xsum xdiff2 in
  let* x_new := isub m ydiff2 e in
  let* x_new_2 := iadd m x_new x_new in
  let* t4 := imult m ysum xdiff3 in
  let* t5 := isub m e x_new_2 in
  let* t5 := imult m ydiff t5 in
  let* t := isub m t5 t4 in
  let y_new := divide_by_2 t in
  let* z_new := imult m (pz p) (pz q) in
  let* z_new := imult m z_new xdiff in
  let xdiff_nonzero := icompare xdiff ZERO in
  let ydiff_nonzero := icompare ydiff ZERO in
  let ret := Point x_new y_new z_new in
  let* dbl := pdouble m p in
  let ret := pchoose (Z.lor xdiff_nonzero ydiff_nonzero) dbl ret in
  let ret := pchoose (Z.lor xdiff_nonzero (wsub 1 ydiff_nonzero)) INFTY ret in
  let ret := pchoose self_is_zero q ret in
  let ret := pchoose b_is_zero p ret in
  Ok ret.

(** p256.rs:208-222 [mult_scalar]: the loop indices in the order visited, (limb, bit) *)
Definition scalar_ijs : list (nat * nat) := list_prod (rev (seq 0 7)) (rev (seq 0 8)).
(** p256.rs:212-217: the loop body *)
Definition scalar_step (m : mode) (p : point) (n : int256) (ret : point) (ij : nat * nat) : res point :=
  let '(i, j) := ij in
  let bit := Z.land (wshr (at_ n i) (Z.of_nat j)) 1 in
  let* ret2 := pdouble m ret in
  let* ret3 := ppadd m ret2 p in
  Ok (pchoose bit ret2 ret3).
(** p256.rs:210-219: the two nested loops *)
Fixpoint scalar_loop (m : mode) (p : point) (n : int256) (l : list (nat * nat)) (ret : point) : res point :=
  match l with
  | [] => Ok ret
  | ij :: l => let* ret := scalar_step m p n ret ij in scalar_loop m p n l ret
  end.
(** p256.rs:208-222 *)
Definition mult_scalar (m : mode) (p : point) (n : int256) : res point := scalar_loop m p n scalar_ijs INFTY.

(** p256.rs:232-238 [to_point] *)
Definition to_point (p : npoint) : point := Point (nx p) (ny p) ONE.

(** p256.rs:240-274 [from_uncompressed_bytes] *)
Definition from_uncompressed_bytes (m : mode) (data : bytes) : res (option npoint) :=
  if negb (zlen data =? 65) then Ok None
  else if negb (beqb (nth 0 data x00) x04) then Ok None
  else
    match from_bytes (firstn 32 (skipn 1 data)), from_bytes (firstn 32 (skipn 33 data)) with
    | Some x, Some y =>
        let* y2 := isquare m y in
        let* x2 := idouble m x in
        let* x3_ := iadd m x2 x in
        let* lhs := iadd m y2 x3_ in
        let* xx := isquare m x in
        let* x3 := imult m xx x in
        let* rhs := iadd m x3 B in
        let zero_if_same := icompare lhs rhs in
        if negb (zero_if_same =? 0) then Ok None else Ok (Some (NPoint x y))
    | _, _ => Ok None
    end.

(** p256.rs:276-283 [to_uncompressed_bytes] *)
Definition to_uncompressed_bytes (p : npoint) : bytes := [x04] ++ to_bytes (nx p) ++ to_bytes (ny p).
