(** Mathematical functions of the Scalar vectors (one entry): scalar/math.h.

    [w] is the entry size: 4 (float_v) or 8 (double_v).  The functions of <cmath> and <algorithm> that are called are written
    from the C++ standard (and IEEE-754 arithmetic).  sqrt and rsqrt are in Roots.v.  Not modelled: the functions that only forward to an
    approximation of the C library (sin, cos, exp, log, ...), frexp and ldexp. *)
From Coq Require Import ZArith List Bool.
From Verif.Spec Require Import FloatSpec.
From Verif.Model Require Import Word Fp FpArith.
Import ListNotations.
Local Open Scope Z_scope.

(** scalar/math.h:37-59: the masks 0x80000000 and 0x7fffffff (0x8000000000000000 and 0x7fffffffffffffff) *)
Definition s_copysign (w : nat) (mag sign : word w) : word w :=
  mkw w (Z.lor (Z.land (uval sign) (2 ^ (bits w - 1))) (Z.land (uval mag) (2 ^ (bits w - 1) - 1))).

(** scalar/math.h:63-72; std::min(a, b) returns b if b < a and a otherwise, std::max(a, b) returns b if a < b and a
    otherwise *)
Definition s_min {w} (x y : word w) : word w := if flt y x then y else x.
Definition s_max {w} (x y : word w) : word w := if flt x y then y else x.

(** scalar/math.h:85-91 for float and double; std::abs clears the sign *)
Definition s_fabs {w} (x : word w) : word w := with_sign w false (magnitude x).
(** scalar/math.h:85-91 for int; std::abs(INT_MIN) is undefined *)
Definition s_abs_int (x : word 4) : option (word 4) :=
  if sval x =? - 2 ^ 31 then None else Some (mkw 4 (Z.abs (sval x))).
(** scalar/math.h:93-96: std::abs of the int; the constructor of the short vector reduces the value modulo 2^16 *)
Definition s_abs_short (x : word 2) : word 2 := mkw 2 (Z.abs (sval x)).

(** scalar/math.h:167-180 *)
Definition s_trunc {w} : word w -> word w := round_to ToZero.
Definition s_floor {w} : word w -> word w := round_to Down.
Definition s_ceil {w} : word w -> word w := round_to Up.

(** 0.5, 1 and 2 of type T *)
Definition s_half (w : nat) : word w := fround w false (one_units w) 2.
(** scalar/math.h:187-195 _realIsEvenHalf *)
Definition s_is_even_half {w} (x : word w) : bool :=
  let f := fmul (s_floor (fmul x (s_half w))) (of_int w 2) in
  feq (fsub x f) (s_half w).
(** scalar/math.h:196-204 *)
Definition s_round {w} (x : word w) : word w :=
  fsub (s_floor (fadd x (s_half w))) (if s_is_even_half x then of_int w 1 else w0 w).

(** scalar/math.h:206-209 *)
Definition s_reciprocal {w} (x : word w) : word w := fdiv (of_int w 1) x.

(** scalar/math.h:217-246: std::isfinite, std::isinf, std::isnan *)
Definition s_isfinite {w} (x : word w) : bool := magnitude x <? inf_magnitude w.
Definition s_isinf {w} (x : word w) : bool := is_inf x.
Definition s_isnan {w} (x : word w) : bool := is_nan x.

(** scalar/math.h:263-273: std::fma of float and double: one rounding of the exact a * b + c *)
Definition ffma {w} (a b c : word w) : word w :=
  if is_nan a then quiet a else if is_nan b then quiet b else if is_nan c then quiet c
  else
    let s := xorb (negative a) (negative b) in
    if is_inf a || is_inf b then
      if is_zero a || is_zero b then indefinite w
      else if is_inf c && xorb s (negative c) then indefinite w
      else with_sign w s (inf_magnitude w)
    else if is_inf c then c
    else
      let v := fvalue a * fvalue b + fvalue c * one_units w in
      if v =? 0 then with_sign w (s && negative c) 0 else fround w (v <? 0) (Z.abs v) (one_units w).
Definition s_fma {w} : word w -> word w -> word w -> word w := ffma.
(** the integer types: a * b + c *)
Definition s_fma_int {w} (a b c : word w) : word w := wadd (wmul a b) c.
