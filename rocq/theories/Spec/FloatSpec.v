(** The value of an IEEE-754 binary32 / binary64 bit pattern, from the definition of the formats.

    Finite values are integer multiples of the smallest positive subnormal number (2^-149 for
    binary32, 2^-1074 for binary64); [fvalue] is that multiple, so it is exact.  Infinity is mapped
    to the value the format would give its exponent field, which is larger than every finite
    magnitude. *)
From Coq Require Import ZArith List Bool.
From Verif.Model Require Import Word.
Import ListNotations.
Local Open Scope Z_scope.

(** number of stored fraction bits and of exponent bits: 23 / 8 and 52 / 11 *)
Definition frac_bits (w : nat) : Z := match w with 4%nat => 23 | _ => 52 end.
Definition expo_bits (w : nat) : Z := match w with 4%nat => 8 | _ => 11 end.

Definition fraction {w} (x : word w) : Z := uval x mod 2 ^ frac_bits w.
Definition exponent_field {w} (x : word w) : Z := (uval x / 2 ^ frac_bits w) mod 2 ^ expo_bits w.
Definition sign_bit {w} (x : word w) : bool := Z.odd (uval x / 2 ^ (frac_bits w + expo_bits w)).

Definition all_ones_exponent {w} (x : word w) : bool := exponent_field x =? 2 ^ expo_bits w - 1.
Definition is_NaN {w} (x : word w) : bool := all_ones_exponent x && negb (fraction x =? 0).
Definition is_Inf {w} (x : word w) : bool := all_ones_exponent x && (fraction x =? 0).
Definition is_Finite {w} (x : word w) : bool := negb (all_ones_exponent x).

(** |x| in units of the smallest subnormal: f for exponent field 0, (1.f) * 2^(e-1) otherwise *)
Definition fabs_value {w} (x : word w) : Z :=
  if exponent_field x =? 0 then fraction x
  else (2 ^ frac_bits w + fraction x) * 2 ^ (exponent_field x - 1).
Definition fvalue {w} (x : word w) : Z := if sign_bit x then - fabs_value x else fabs_value x.

(** IEEE comparison predicates (C++ operators): false if an operand is NaN, except != *)
Definition ordered {w} (a b : word w) : bool := negb (is_NaN a) && negb (is_NaN b).
Definition float_lt {w} (a b : word w) : bool := ordered a b && (fvalue a <? fvalue b).
Definition float_le {w} (a b : word w) : bool := ordered a b && (fvalue a <=? fvalue b).
Definition float_eq {w} (a b : word w) : bool := ordered a b && (fvalue a =? fvalue b).

(** FLT_MAX / DBL_MAX and FLT_MIN / DBL_MIN (std::numeric_limits<T>::max() and min()) *)
Definition largest_finite (w : nat) : word w := mkw w ((2 ^ expo_bits w - 1) * 2 ^ frac_bits w - 1).
Definition smallest_normal (w : nat) : word w := mkw w (2 ^ frac_bits w).
