(** The values for which adding one half is not exact enough to round. *)
From Coq Require Import ZArith List Bool.
From Verif.Spec Require Import FloatSpec RoundSpec.
From Verif.Model Require Import Word.
Import ListNotations.
Local Open Scope Z_scope.

(** the largest float / double below one half *)
Definition just_below_half (w : nat) : word w := mkw w (match w with 4%nat => 0x3effffff | _ => 0x3fdfffffffffffff end).
(** an odd integer z with 2^23 <= |z| < 2^24 (float), 2^52 <= |z| < 2^53 (double): neighbouring values differ by one *)
Definition large_odd {w} (x : word w) (z : Z) : Prop :=
  has_value x z /\ Z.Odd z /\ 2 ^ frac_bits w <= Z.abs z < 2 ^ (frac_bits w + 1).

(** the smaller and the larger one of two values that are not NaN *)
Definition is_min {w} (x y r : word w) : Prop := (r = x \/ r = y) /\ fvalue r = Z.min (fvalue x) (fvalue y).
Definition is_max {w} (x y r : word w) : Prop := (r = x \/ r = y) /\ fvalue r = Z.max (fvalue x) (fvalue y).
