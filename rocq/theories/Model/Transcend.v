(** The functions that approximate: sin, cos, sincos, asin, atan, atan2 (src/trigonometric.cpp), log, log2, log10
    (common/logarithm.h) and exp (common/exponential.h, common/math.h), with their constants (src/const.cpp), evaluated
    operation by operation.

    The code is written with the operators and functions of Vector<T, Abi>; a vector is modelled by the list of its
    entries and every operator by its meaning for one entry, which is what the theorems C02, C15, C21, C36, C37, C38
    and C46 establish for the SSE and AVX registers.  The decisions that involve the whole vector (all_of, any_of) are
    kept.  Not modelled: builds with Vc_HAVE_LIBMVEC (sin and cos of the C library) and the contraction of a
    multiplication and an addition to one instruction by compilers in builds with FMA instructions.

    The trigonometric functions are compiled into libVc; common/trigonometric.h:48-84 selects the SSE 4.1 variant for
    every SSE vector and the AVX variant for every AVX vector, so round() is roundps, roundpd there. *)
From Coq Require Import ZArith List Bool.
From Verif.Spec Require Import Seq FloatSpec.
From Verif.Model Require Import Word Fp FpArith.
Import ListNotations.
Local Open Scope Z_scope.

(** * constants *)

(** common/const.h:75-87 doubleConstant<sign, mantissa, exponent>(), floatConstant<sign, mantissa, exponent>(): exact *)
Definition fconst (w : nat) (sign mantissa exponent : Z) : word w :=
  with_sign w (sign <? 0) ((exponent + 2 ^ (exp_bits w - 1) - 1) * 2 ^ mant_bits w + mantissa).
(** a decimal literal n / 10^d, converted to the nearest value as the language requires *)
Definition flit (w : nat) (n d : Z) : word w := fround w (n <? 0) (Z.abs n * one_units w) (10 ^ d).
Definition f4 : Z -> Z -> Z -> word 4 := fconst 4.
Definition f8 : Z -> Z -> Z -> word 8 := fconst 8.

(** src/const.cpp:54, 64, 65, 112, 123, 124, 296, 308, 309, 361, 373, 374 and 80, 138, 326, 391 *)
Definition pi_4 (w : nat) : word w := match w with 4%nat => f4 1 0x490fdb (-1) | 8%nat => f8 1 0x921fb54442d18 (-1) | _ => w0 _ end.
Definition pi_2 (w : nat) : word w := match w with 4%nat => f4 1 0x490fdb 0 | 8%nat => f8 1 0x921fb54442d18 0 | _ => w0 _ end.
Definition pi (w : nat) : word w := match w with 4%nat => f4 1 0x490fdb 1 | 8%nat => f8 1 0x921fb54442d18 1 | _ => w0 _ end.
Definition pi_2_rem8 : word 8 := f8 1 0x1a62633145c07 (-54).
Definition one (w : nat) : word w := of_int w 1.
Definition half (w : nat) : word w := flit w 5 1.

(** * operators for one entry *)

(** sse/vectorhelper.h:178, 253, avx/vectorhelper.h abs(); sse/math.h:37-46, avx/math.h copysign() *)
Definition l_abs {w} (x : word w) : word w := with_sign w false (magnitude x).
Definition l_copysign {w} (mag sign : word w) : word w := with_sign w (negative sign) (magnitude mag).
(** x ^ s where s has only a sign bit *)
Definition l_flip {w} (s : bool) (x : word w) : word w := if s then fneg x else x.
(** sse/vector.tcc:239-254, avx/vector.tcc:296-311 setQnan(mask): all bits of the entry are set *)
Definition l_qnan {w} (k : bool) (x : word w) : word w := if k then mkw w (-1) else x.
(** setZero(mask) *)
Definition l_zero {w} (k : bool) (x : word w) : word w := if k then w0 w else x.
(** x(mask) = y *)
Definition l_set {w} (k : bool) (x y : word w) : word w := if k then y else x.
(** The operators > and >= of floating-point vectors: what they return if an operand is NaN depends on the build
    (SSE float >=: true; AVX > and >=: true with some compilers; see C39). *)
Record build := { gt_on_nan : bool; ge_on_nan : bool }.
Definition unordered {w} (a b : word w) : bool := is_nan a || is_nan b.
Definition l_gt {w} (c : build) (a b : word w) : bool := if unordered a b then gt_on_nan c else flt b a.
Definition l_ge {w} (c : build) (a b : word w) : bool := if unordered a b then ge_on_nan c else fle b a.
Definition l_isfinite {w} (x : word w) : bool := negb (is_nan x || is_nan (fmul (w0 w) x)).

(** sqrtps, sqrtpd for one value: the square root of n units is sqrt (n * one_units) units; the last bit of the argument
    of [fround] says whether the integer root is inexact, which is enough to round correctly *)
Definition fsqrt {w} (x : word w) : word w :=
  if is_nan x then quiet x
  else if is_zero x then x
  else if negative x then indefinite w
  else if is_inf x then x
  else let n := fabs_value x * one_units w in
       let s := Z.sqrt n in
       fround w false (2 * s + (if s * s =? n then 0 else 1)) 2.

(** * sin, cos *)

(** src/trigonometric.cpp:55-66 *)
Definition cos_series4 (x : word 4) : word 4 :=
  let x2 := fmul x x in
  let y := f4 1 0x500000 (-16) in
  let y := fadd (fmul y x2) (f4 (-1) 0x360800 (-10)) in
  let y := fadd (fmul y x2) (f4 1 0x2aaaab (-5)) in
  fadd (fsub (fmul y (fmul x2 x2)) (fmul (half 4) x2)) (one 4).
(** 68-81 *)
Definition cos_series8 (x : word 8) : word 8 :=
  let x2 := fmul x x in
  let y := f8 1 0xac00000000000 (-45) in
  let y := fadd (fmul y x2) (f8 (-1) 0x9394000000000 (-37)) in
  let y := fadd (fmul y x2) (f8 1 0x1eed8c0000000 (-29)) in
  let y := fadd (fmul y x2) (f8 (-1) 0x27e4fb7400000 (-22)) in
  let y := fadd (fmul y x2) (f8 1 0xa01a01a018000 (-16)) in
  let y := fadd (fmul y x2) (f8 (-1) 0x6c16c16c16c00 (-10)) in
  let y := fadd (fmul y x2) (f8 1 0x5555555555554 (-5)) in
  fadd (fmul (fsub (fmul y x2) (half 8)) x2) (one 8).
(** 83-92 *)
Definition sin_series4 (x : word 4) : word 4 :=
  let x2 := fmul x x in
  let y := f4 (-1) 0x4e6000 (-13) in
  let y := fadd (fmul y x2) (f4 1 0x088880 (-7)) in
  let y := fadd (fmul y x2) (f4 (-1) 0x2aaaab (-3)) in
  fadd (fmul y (fmul x2 x)) x.
(** 94-109 *)
Definition sin_series8 (x : word 8) : word 8 :=
  let x2 := fmul x x in
  let y := f8 (-1) 0xacf0000000000 (-41) in
  let y := fadd (fmul y x2) (f8 1 0x6124400000000 (-33)) in
  let y := fadd (fmul y x2) (f8 (-1) 0xae64567000000 (-26)) in
  let y := fadd (fmul y x2) (f8 1 0x71de3a5540000 (-19)) in
  let y := fadd (fmul y x2) (f8 (-1) 0xa01a01a01a000 (-13)) in
  let y := fadd (fmul y x2) (f8 1 0x1111111111110 (-7)) in
  let y := fadd (fmul y x2) (f8 (-1) 0x5555555555555 (-3)) in
  fadd (fmul y (fmul x2 x)) x.

(** simd_cast<V>(simd_cast<IV>(y) & 3) for one entry: 148, 157, 209 *)
Definition quadrant_of {w} (v : nat) (y : word w) : word v := of_int v (Z.land (sval (cvt_int32 ToZero y)) 3).
(** struct folded: the argument and the quadrant *)
Definition folded (w : nat) := (word w * word w)%type.
(** 146-150 *)
Definition fold4_float (x : word 4) : folded 4 :=
  let y := round_to ToNearest (fmul x (f4 1 0x22f983 (-1))) in
  (fsub (fsub x (fmul y (f4 1 0x490fe0 0))) (fmul y (f4 (-1) 0x2bbbd3 (-21))), quadrant_of 4 y).
(** 152-159 *)
Definition fold4_double (x : word 4) : folded 4 :=
  let xd := to_double (l_abs x) in
  let y := round_to ToNearest (fmul xd (f8 1 0x45f306dc9c883 (-1))) in
  (to_float (fsub xd (fmul y (f8 1 0x921fb54442d18 0))), quadrant_of 4 y).
(** 134-162 *)
Definition fold4 (xs : list (word 4)) : list (folded 4) :=
  let r := map l_abs xs in
  if forallb (fun x => flt x (pi_4 4)) r then map (fun x => (x, w0 4)) r
  else if forallb (fun x => flt x (fmul (of_int 4 33) (pi_4 4))) r then map fold4_float r
  else map fold4_double r.
(** 208 *)
Definition turns8 (x : word 8) : word 8 := round_to ToNearest (fdiv x (fmul (of_int 8 2) (pi_4 8))).
(** 213-215 *)
Definition fold8_small (x : word 8) : word 8 :=
  let y := turns8 x in
  fsub (fsub (fsub x (fmul y (f8 1 0x921fb54443000 0))) (fmul y (f8 (-1) 0x73dcb3b39a000 (-43)))) (fmul y (f8 1 0x45c06e0e68948 (-86))).
(** 218-220 *)
Definition fold8_medium (x : word 8) : word 8 :=
  let y := turns8 x in
  fsub (fsub (fsub x (fmul y (f8 1 0x921fb40000000 0))) (fmul y (f8 1 0x4442d00000000 (-24)))) (fmul y (f8 1 0x8469898cc5170 (-48))).
(** 223-253; sse/const.h:100-103 and avx/const.h highMask(26) *)
Definition fold8_large (x : word 8) : word 8 :=
  let y := turns8 x in
  let y_hi := mkw 8 (Z.land (uval y) (2 ^ 64 - 2 ^ 26)) in
  let y_lo := fsub y y_hi in
  let p1 := f8 1 0x921fb50000000 0 in
  let p2 := f8 1 0x110b460000000 (-26) in
  let p3 := f8 1 0x1a62630000000 (-54) in
  let p4 := f8 1 0x8a2e03707344a (-81) in
  let x := fsub x (fmul y_hi p1) in
  let x := fsub x (mm_fmax (fmul y_hi p2) (fmul y_lo p1)) in
  let x := fsub x (mm_fmin (fmul y_hi p2) (fmul y_lo p1)) in
  let x := fsub x (mm_fmax (fmul y_hi p3) (fmul y_lo p2)) in
  let x := fsub x (mm_fmin (fmul y_hi p3) (fmul y_lo p2)) in
  let x := fsub x (mm_fmax (fmul y p4) (fmul y_lo p3)) in
  fsub x (mm_fmin (fmul y p4) (fmul y_lo p3)).
(** 194-256 *)
Definition fold8 (xs : list (word 8)) : list (folded 8) :=
  let r := map l_abs xs in
  if forallb (fun x => flt x (pi_4 8)) r then map (fun x => (x, w0 8)) r
  else
    let quadrant x := quadrant_of 8 (turns8 x) in
    if forallb (fun x => flt x (fmul (of_int 8 1025) (pi_4 8))) r then map (fun x => (fold8_small x, quadrant x)) r
    else if forallb (fun x => fle (turns8 x) (f8 1 0 30)) r then map (fun x => (fold8_medium x, quadrant x)) r
    else map (fun x => (fold8_large x, quadrant x)) r.

(** 290-294, 309-313, 366-371, 391-396: sin_sign = (x ^ (1 - quadrant)) & signmask *)
Definition even_quadrant {w} (q : word w) : bool := feq q (w0 w) || feq q (of_int w 2).
Definition finish_sin {w} (sin_series cos_series : word w -> word w) (x : word w) (f : folded w) : word w :=
  let '(r, q) := f in
  let sign := xorb (negative x) (negative (fsub (one w) q)) in
  l_flip sign (if even_quadrant q then sin_series r else cos_series r).
(** 328-332, 346-350, 367-372, 392-397: cos_sign = ((0.5 - quadrant) & (quadrant - 2.5)) & signmask *)
Definition finish_cos {w} (sin_series cos_series : word w -> word w) (f : folded w) : word w :=
  let '(r, q) := f in
  let sign := negative (fsub (half w) q) && negative (fsub q (flit w 25 1)) in
  l_flip sign (if even_quadrant q then cos_series r else sin_series r).
(** 278-295; 316-333 *)
Definition sin8 (xs : list (word 8)) : list (word 8) := map2 (finish_sin sin_series8 cos_series8) xs (fold8 xs).
Definition cos8 (xs : list (word 8)) : list (word 8) := map (finish_cos sin_series8 cos_series8) (fold8 xs).
(** 353-373 *)
Definition sincos8 (xs : list (word 8)) : list (word 8) * list (word 8) :=
  let f := fold8 xs in
  (map2 (finish_sin sin_series8 cos_series8) xs f, map (finish_cos sin_series8 cos_series8) f).
(** simd_cast<double_v, 0>(x) and <1>: the lower and the upper half of the entries; simd_cast<float_v>(a, b) *)
Definition lower_half {A} (xs : list A) : list A := firstn (length xs / 2) xs.
Definition upper_half {A} (xs : list A) : list A := skipn (length xs / 2) xs.
Definition in_double (f : list (word 8) -> list (word 8)) (xs : list (word 4)) : list (word 4) :=
  map to_float (f (map to_double (lower_half xs)) ++ f (map to_double (upper_half xs))).
(** any_of(abs(x) >= limit) *)
Definition any_large (c : build) (limit : Z) (xs : list (word 4)) : bool :=
  existsb (fun x => l_ge c (l_abs x) (of_int 4 limit)) xs.
(** 297-314; 335-351 *)
Definition sin4 (c : build) (xs : list (word 4)) : list (word 4) :=
  if any_large c 527449 xs then in_double sin8 xs else map2 (finish_sin sin_series4 cos_series4) xs (fold4 xs).
Definition cos4 (c : build) (xs : list (word 4)) : list (word 4) :=
  if any_large c 393382 xs then in_double cos8 xs else map (finish_cos sin_series4 cos_series4) (fold4 xs).
(** 375-398 *)
Definition sincos4 (c : build) (xs : list (word 4)) : list (word 4) * list (word 4) :=
  if any_large c 393382 xs then (in_double (fun d => fst (sincos8 d)) xs, in_double (fun d => snd (sincos8 d)) xs)
  else let f := fold4 xs in
       (map2 (finish_sin sin_series4 cos_series4) xs f, map (finish_cos sin_series4 cos_series4) f).

(** a polynomial in Horner form, highest coefficient first *)
Definition horner {w} (cs : list (word w)) (x : word w) : word w :=
  match cs with [] => w0 w | c :: cs => fold_left (fun y c => fadd (fmul y x) c) cs c end.

(** * asin *)

(** src/const.cpp:139, 142-146, 392, 396-401 *)
Definition small_asin4 : word 4 := flit 4 1 4.
Definition asin_coeff4 : list (word 4) :=
  [flit 4 42163199048 12; flit 4 24181311049 12; flit 4 45470025998 12; flit 4 74953002686 12; flit 4 16666752422 11].
(** src/trigonometric.cpp:400-431 for one entry *)
Definition asin4 (c : build) (x0 : word 4) : word 4 :=
  let neg := flt x0 (w0 4) in
  let a := l_abs x0 in
  let outOfRange := l_gt c a (one 4) in
  let small := flt a small_asin4 in
  let gt_0_5 := l_gt c a (half 4) in
  let x := a in
  let z := fmul a a in
  let z := l_set gt_0_5 z (fmul (fsub (one 4) a) (half 4)) in
  let x := l_set gt_0_5 x (fsqrt z) in
  let z := fadd (fmul (fmul (horner asin_coeff4 z) z) x) x in
  let z := l_set gt_0_5 z (fsub (pi_2 4) (fadd z z)) in
  let z := l_set small z a in
  let z := l_set neg z (fneg z) in
  l_qnan outOfRange z.
(** src/const.cpp:81, 82, 85-106, 327-354 *)
Definition small_asin8 : word 8 := flit 8 1 8.
Definition large_asin8 : word 8 := flit 8 625 3.
Definition asin_r : list (word 8) :=
  [f8 1 0x84fc3988e9f08 (-9); f8 (-1) 0x2079259f9290f (-1); f8 1 0xbdff5baf33e6a 2; f8 (-1) 0x991aaac01ab68 4; f8 1 0xc896240f3081d 4].
Definition asin_s : list (word 8) := [f8 (-1) 0x5f2a2b6bf5d8c 4; f8 1 0x26219af6a7f42 7; f8 (-1) 0x7fe08959063ee 8; f8 1 0x56709b0b644be 8].
Definition asin_p : list (word 8) :=
  [f8 1 0x16b9b0bd48ad3 (-8); f8 (-1) 0x34341333e5c16 (-1); f8 1 0x5c74b178a2dd9 2; f8 (-1) 0x04331de27907b 4; f8 1 0x39007da779259 4; f8 (-1) 0x0656c06ceafd5 3].
Definition asin_q : list (word 8) := [f8 (-1) 0xd7b590b5e0eab 3; f8 1 0x19fc025fe9054 6; f8 (-1) 0x265bb6d3576d7 7; f8 1 0x1705684ffbf9d 7; f8 (-1) 0x898220a3607ac 5].
(** x + c0, then Horner *)
Definition horner1 {w} (cs : list (word w)) (x : word w) : word w :=
  match cs with [] => x | c :: cs => fold_left (fun y c => fadd (fmul y x) c) cs (fadd x c) end.
(** src/trigonometric.cpp:432-466 for one entry *)
Definition asin8 (c : build) (x0 : word 8) : word 8 :=
  let neg := flt x0 (w0 8) in
  let a := l_abs x0 in
  let outOfRange := l_gt c a (one 8) in
  let small := flt a small_asin8 in
  let large := l_gt c a large_asin8 in
  let zz := fsub (one 8) a in
  let r := horner asin_r zz in
  let s := horner1 asin_s zz in
  let sqrtzz := fsqrt (fadd zz zz) in
  let z := fsub (pi_4 8) sqrtzz in
  let z := fsub z (fsub (fmul sqrtzz (fdiv (fmul zz r) s)) pi_2_rem8) in
  let z := fadd z (pi_4 8) in
  let a2 := fmul a a in
  let p := horner asin_p a2 in
  let q := horner1 asin_q a2 in
  let z := l_set (negb large) z (fadd (fmul a (fdiv (fmul a2 p) q)) a) in
  let z := l_set neg z (fneg z) in
  let z := l_set small z x0 in
  l_qnan outOfRange z.

(** * atan, atan2 *)

(** src/const.cpp:125-128, 136, 137, 376-379, 388, 389 *)
Definition atan_hi4 : word 4 := flit 4 2414213562373095 15.
Definition atan_lo4 : word 4 := flit 4 414213562373095 15.
Definition atan_p4 (i : nat) : word 4 :=
  nth i [flit 4 805374449538 13; flit 4 138776856032 12; flit 4 199777106478 12; flit 4 333329491539 12] (w0 4).
(** src/trigonometric.cpp:467-492 for one entry *)
Definition atan4 (c : build) (x0 : word 4) : word 4 :=
  let x := l_abs x0 in
  let gt_tan_3pi_8 := l_gt c x atan_hi4 in
  let gt_tan_pi_8 := l_gt c x atan_lo4 && negb gt_tan_3pi_8 in
  let y := w0 4 in
  let y := l_set gt_tan_3pi_8 y (pi_2 4) in
  let y := l_set gt_tan_pi_8 y (pi_4 4) in
  let x := l_set gt_tan_3pi_8 x (fdiv (fneg (one 4)) x) in
  let x := l_set gt_tan_pi_8 x (fdiv (fsub x (one 4)) (fadd x (one 4))) in
  let x2 := fmul x x in
  let t := fmul (atan_p4 0) x2 in
  let t := fmul (fsub t (atan_p4 1)) x2 in
  let t := fmul (fadd t (atan_p4 2)) x2 in
  let t := fmul (fsub t (atan_p4 3)) x2 in
  let y := fadd y (fadd (fmul t x) x) in
  let y := l_set (flt x0 (w0 4)) y (fneg y) in
  l_qnan (is_nan x0) y.
(** src/const.cpp:67-79, 311-324 *)
Definition atan_hi8 : word 8 := f8 1 0x3504f333f9de6 1.
Definition atan_lo8 : word 8 := flit 8 66 2.
Definition atan_p8 : list (word 8) :=
  [f8 (-1) 0xc007fa1f72594 (-1); f8 (-1) 0x028545b6b807a 4; f8 (-1) 0x2c08c36880273 6; f8 (-1) 0xeb8bf2d05ba25 6; f8 (-1) 0x03669fd28ec8e 6].
Definition atan_q8 : list (word 8) :=
  [f8 1 0x8dbc45b14603c 4; f8 1 0x4a0dd43b8fa25 7; f8 1 0xb0e18d2e2be3b 8; f8 1 0xe563f13b049ea 8; f8 1 0x8519efbbd62ec 7].
(** src/trigonometric.cpp:493-522 for one entry *)
Definition atan8 (c : build) (x0 : word 8) : word 8 :=
  let sign := flt x0 (w0 8) in
  let x := l_abs x0 in
  let finite := l_isfinite x0 in
  let ret := pi_2 8 in
  let y := w0 8 in
  let large := l_gt c x atan_hi8 in
  let gt_06 := l_gt c x atan_lo8 in
  let tmp := fdiv (fsub x (one 8)) (fadd x (one 8)) in
  let tmp := l_set large tmp (fdiv (fneg (one 8)) x) in
  let x := l_set gt_06 x tmp in
  let y := l_set gt_06 y (pi_4 8) in
  let y := l_set large y (pi_2 8) in
  let z := fmul x x in
  let p := horner atan_p8 z in
  let q := horner1 atan_q8 z in
  let z := fdiv (fmul z p) q in
  let z := fadd (fmul x z) x in
  let morebits := pi_2_rem8 in
  let morebits := l_set (negb large) morebits (fmul morebits (half 8)) in
  let z := l_set gt_06 z (fadd z morebits) in
  let ret := l_set finite ret (fadd y z) in
  let ret := l_set sign ret (fneg ret) in
  l_qnan (is_nan x0) ret.
Definition atan (w : nat) (c : build) : word w -> word w :=
  match w with 4%nat => atan4 c | 8%nat => atan8 c | _ => fun x => x end.
(** src/trigonometric.cpp:523-568, 569-609 for one entry *)
Definition atan2 {w} (c : build) (y x : word w) : word w :=
  let xZero := feq x (w0 w) in
  let yZero := feq y (w0 w) in
  let xMinusZero := xZero && negative x in
  let yNeg := flt y (w0 w) in
  let xInf := negb (l_isfinite x) in
  let yInf := negb (l_isfinite y) in
  let a := l_copysign (pi w) y in
  let a := l_zero (l_ge c x (w0 w)) a in
  let x' := l_set yInf x (l_copysign (one w) x) in
  let a := fadd a (atan w c (fdiv y x')) in
  let a := l_zero (xZero && yZero) a in
  let a := l_set xMinusZero a (fadd a (l_copysign (pi w) y)) in
  let a := l_set (xZero && yNeg) a (fneg (pi_2 w)) in
  let a := l_set (xInf && yInf) a (fadd a (with_sign w (xorb (negative x) (negb (negative y))) (magnitude (pi_4 w)))) in
  let a := l_set (feq a (w0 w)) a (l_copysign a y) in
  l_qnan (is_nan y || is_nan x) a.

(** * log, log2, log10 *)
Inductive log_base := BaseE | Base10 | Base2.
(** c_log: src/const.cpp:179-231, 426-488 *)
Definition log_p4 : list (word 4) :=
  map (mkw 4) [0x3d9021bb; 0xbdebd1b8; 0x3def251a; 0xbdfe5d4f; 0x3e11e9bf; 0xbe2aae50; 0x3e4cceac; 0xbe7ffffc; 0x3eaaaaaa].
Definition log_p8 : list (word 8) :=
  map (mkw 8) [0x3f1ab4c293c31bb0; 0x3fdfd6f53f5652f2; 0x4012d2baed926911; 0x402cff72c63eeb2e; 0x4031efd6924bc84d; 0x401ed5637d7edcf8].
Definition log_q8 : list (word 8) :=
  map (mkw 8) [0x40269320ae97ef8e; 0x40469d2c4e19c033; 0x4054bf33a326bdbd; 0x4051c9e2eb5eae21; 0x4037200a9e1f25b2].
Definition c_log (w : nat) (s d : Z) : word w := match w with 4%nat => mkw _ s | _ => mkw _ d end.
Definition c_neginf w := c_log w 0xff800000 0xfff0000000000000.
Definition c_min w := c_log w 0x00800000 0x0010000000000000.
Definition c_1_sqrt2 w := c_log w 0x3f3504f3 0x3fe6a09e667f3bcd.
Definition c_ln2_large w := c_log w 0x3f318000 0x3fe6300000000000.
Definition c_ln2_small w := c_log w 0xb95e8083 0xbf2bd0105c610ca8.
Definition c_log10_e w := c_log w 0x3ede5bd9 0x3fdbcb7b1526e50e.
Definition c_log2_e w := c_log w 0x3fb8aa3b 0x3ff71547652b82fe.
(** the part common to both series: common/logarithm.h:143-168, 188-213 *)
Definition log_finish {w} (b : log_base) (x x2 y exponent : word w) : word w :=
  match b with
  | BaseE | Base10 =>
      let y := fadd y (fmul exponent (c_ln2_small w)) in
      let y := fsub y (fmul x2 (half w)) in
      let x := fadd x y in
      let x := fadd x (fmul exponent (c_ln2_large w)) in
      match b with Base10 => fmul x (c_log10_e w) | _ => x end
  | Base2 =>
      let x_ := x in
      let x := fmul x (c_log2_e w) in
      let y := fmul y (c_log2_e w) in
      let y := fsub y (fmul (fmul x_ x) (half w)) in
      let x := fadd x y in
      fadd x exponent
  end.
(** 71-142 (neither Vc_LOG_ILP nor Vc_LOG_ILP2 is defined) *)
Definition log_series4 (b : log_base) (x exponent : word 4) : word 4 :=
  let x2 := fmul x x in
  let y := horner log_p4 x in
  let y := fmul y (fmul x x2) in
  log_finish b x x2 y exponent.
(** 171-187 *)
Definition log_series8 (b : log_base) (x exponent : word 8) : word 8 :=
  let x2 := fmul x x in
  let y := horner (firstn 5 log_p8) x in
  let y2 := fold_left (fun y c => fadd (fmul y x) c) (tl log_q8) (fadd (hd (w0 8) log_q8) x) in
  let y2 := fdiv x y2 in
  let y := fadd (fmul y x) (nth 5 log_p8 (w0 8)) in
  let y := fmul (fmul x2 y) y2 in
  log_finish b x x2 y exponent.
Definition log_series (w : nat) (b : log_base) : word w -> word w -> word w :=
  match w with 4%nat => log_series4 b | 8%nat => log_series8 b | _ => fun x _ => x end.
(** sse/vector.tcc:455-466, avx/vector.tcc:628-645 Detail::exponent for one entry *)
Definition l_exponent {w} (x : word w) : word w := of_int w (uval x / 2 ^ mant_bits w - (2 ^ (exp_bits w - 1) - 1)).
(** 216-253 for one entry; V(doubleConstant<1, 0, 54>()) is exact in both types *)
Definition log_calc (w : nat) (b : log_base) (x0 : word w) : word w :=
  let invalidMask := flt x0 (w0 w) in
  let infinityMask := feq x0 (w0 w) in
  let denormal := fle x0 (c_min w) in
  let x := l_set denormal x0 (fmul x0 (of_int w (2 ^ 54))) in
  let exponent := l_exponent x in
  let exponent := l_set denormal exponent (fsub exponent (of_int w 54)) in
  let x := mkw w (uval x - exponent_field x * 2 ^ mant_bits w) in
  let x := mkw w (Z.lor (uval x) (uval (half w))) in
  let smallX := flt x (c_1_sqrt2 w) in
  let x := l_set smallX x (fadd x x) in
  let x := fsub x (one w) in
  let exponent := l_set (negb smallX) exponent (fadd exponent (one w)) in
  let x := log_series w b x exponent in
  let x := l_qnan invalidMask x in
  l_set infinityMask x (c_neginf w).

(** * exp *)

(** floor: sse/math.h:109-160 with SSE 4.1 and AVX, and without SSE 4.1 (see Model/SseMath.v trunc_ps_sse2, trunc_pd_sse2
    for the registers) *)
Definition l_trunc4 (x : word 4) : word 4 := if exponent_field x <? 150 then of_int 4 (sval (cvt_int32 ToZero x)) else x.
Definition l_trunc8 (x : word 8) : word 8 :=
  let a := l_abs x in
  let t := fsub (fadd a (of_int 8 (2 ^ 52))) (of_int 8 (2 ^ 52)) in
  let t := fsub t (if flt a t then one 8 else w0 8) in
  wor (with_sign 8 (negative x) 0) t.
Definition l_trunc_sse2 (w : nat) : word w -> word w := match w with 4%nat => l_trunc4 | 8%nat => l_trunc8 | _ => fun x => x end.
Definition l_floor {w} (sse41 : bool) (x : word w) : word w :=
  if sse41 then round_to Down x
  else let y := l_trunc_sse2 w x in if negb (feq y x) && flt x (w0 w) then fsub y (one w) else y.
(** sse/math.h:92-107, avx/math.h ldexp for one entry: the exponent is added to the bits of v *)
Definition l_ldexp {w} (v : word w) (n : word 4) : word w :=
  let n := if feq v (w0 w) then w0 4 else n in
  mkw w (uval v + uval n * 2 ^ mant_bits w).
(** common/exponential.h:47-89 for one entry *)
Definition maxlogf : word 4 := flit 4 88722831726074219 15.
Definition minlogf : word 4 := flit 4 (-88029685974121094) 15.
Definition exp4_series (x : word 4) : word 4 :=
  let z := horner [flit 4 19875691500 14; flit 4 13981999507 13; flit 4 83334519073 13; flit 4 41665795894 12; flit 4 16666665459 11; flit 4 50000001201 11] x in
  fadd (fadd (fmul z (fmul x x)) x) (one 4).
Definition exp4 (sse41 : bool) (c : build) (x : word 4) : word 4 :=
  let overflow := l_gt c x maxlogf in
  let underflow := flt x minlogf in
  let z := l_floor sse41 (fadd (fmul (c_log2_e 4) x) (half 4)) in
  let n := cvt_int32 ToZero z in
  let x := fsub x (fmul z (c_ln2_large 4)) in
  let x := fsub x (fmul z (c_ln2_small 4)) in
  let x := l_ldexp (exp4_series x) n in
  let x := l_set overflow x (pos_inf 4) in
  l_zero underflow x.
(** common/math.h:57-95 (AVX), 98-135 (SSE) for one entry *)
Definition maxlog : word 8 := f8 1 0x6232bdd7abcd2 9.
Definition minlog : word 8 := f8 (-1) 0x6232bdd7abcd2 9.
Definition exp8_series (x : word 8) : word 8 :=
  let x2 := fmul x x in
  let px := fmul x (horner [f8 1 0x089cdd5e44be8 (-13); f8 1 0xf06d10cca2c7e (-6); f8 1 0 0] x2) in
  let x := fdiv px (fsub (horner [f8 1 0x92eb6bc365fa0 (-19); f8 1 0x4ae39b508b6c0 (-9); f8 1 0xd17099887e074 (-3); f8 1 0 1] x2) px) in
  fadd (one 8) (fmul (of_int 8 2) x).
Definition exp8 (sse41 : bool) (c : build) (x : word 8) : word 8 :=
  let overflow := l_gt c x maxlog in
  let underflow := flt x minlog in
  let px := l_floor sse41 (fadd (fmul (c_log2_e 8) x) (half 8)) in
  let n := cvt_int32 ToZero px in
  let x := fsub x (fmul px (c_ln2_large 8)) in
  let x := fsub x (fmul px (c_ln2_small 8)) in
  let x := l_ldexp (exp8_series x) n in
  let x := l_set overflow x (pos_inf 8) in
  l_zero underflow x.
