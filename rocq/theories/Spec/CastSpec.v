(** What a conversion of one value (static_cast<To>(x) in C++) has to return. *)
From Coq Require Import ZArith List Bool.
From Verif.Spec Require Import FloatSpec RoundSpec.
From Verif.Model Require Import Word SseBuild.
Import ListNotations.
Local Open Scope Z_scope.

Definition is_signed (e : etype) : bool := match e with Short | Int => true | _ => false end.
(** the number an entry of an integer type stands for *)
Definition int_value (e : etype) (x : elt e) : Z := if is_signed e then sval x else uval x.
(** the numbers an integer type can represent *)
Definition in_range (e : etype) (z : Z) : Prop :=
  if is_signed e then - 2 ^ (8 * Z.of_nat (esize e) - 1) <= z < 2 ^ (8 * Z.of_nat (esize e) - 1)
  else 0 <= z < 2 ^ (8 * Z.of_nat (esize e)).

(** results of at least this magnitude (in the units of [fvalue]) round to infinity: the largest finite value plus half
    the distance to its predecessor *)
Definition overflow_at (w : nat) : Z := (2 ^ (frac_bits w + 2) - 1) * 2 ^ (2 ^ expo_bits w - 4).
(** [y] is the correctly rounded result for the exact number (-1)^neg * n / d, 0 <= n and 0 < d *)
Definition rounded {w} (y : word w) (neg : bool) (n d : Z) : Prop :=
  sign_bit y = neg /\
  (n < overflow_at w * d -> nearest y (if neg then - n else n) d) /\
  (overflow_at w * d <= n -> is_Inf y = true).

(** static_cast:
    - integer to integer: the value of the target type that is congruent modulo 2 ^ bits;
    - integer to floating point: the nearest value;
    - floating point to integer: truncation, if the truncated value is representable (otherwise undefined in C++);
    - between floating point types: the correctly rounded value; NaN and infinity are kept. *)
Definition cast_ok (from to : etype) (x : elt from) (y : elt to) : Prop :=
  match is_integer from, is_integer to with
  | true, true => (int_value to y - int_value from x) mod 2 ^ (8 * Z.of_nat (esize to)) = 0
  | true, false => nearest_int y (int_value from x) /\ sign_bit y = (int_value from x <? 0)
  | false, true => is_Finite x = true -> in_range to (Z.quot (fvalue x) (fone (esize from))) ->
                   int_value to y = Z.quot (fvalue x) (fone (esize from))
  | false, false => (is_NaN x = true -> is_NaN y = true) /\
                    (is_Inf x = true -> is_Inf y = true /\ sign_bit y = sign_bit x) /\
                    (is_Finite x = true -> rounded y (sign_bit x) (fabs_value x * fone (esize to)) (fone (esize from)))
  end.
