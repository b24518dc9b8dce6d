(** Correct rounding: what it means that a float is the representable value nearest to a rational number. *)
From Coq Require Import ZArith List Bool.
From Verif.Spec Require Import FloatSpec.
From Verif.Model Require Import Word.
Import ListNotations.
Local Open Scope Z_scope.

(** value 1 in the units of [fvalue]: 2 ^ 149 and 2 ^ 1074 *)
Definition fone (w : nat) : Z := match w with 4%nat => 2 ^ 149 | _ => 2 ^ 1074 end.
(** [x] is finite and has the integer value [z] *)
Definition has_value {w} (x : word w) (z : Z) : Prop := is_Finite x = true /\ fvalue x = z * fone w.

(** [x] is the finite value nearest to n / d (in the units of [fvalue], 0 < d); of two nearest ones the one with an
    even fraction *)
Definition nearest {w} (x : word w) (n d : Z) : Prop :=
  is_Finite x = true /\
  forall y : word w, is_Finite y = true ->
    Z.abs (fvalue x * d - n) <= Z.abs (fvalue y * d - n) /\
    (Z.abs (fvalue x * d - n) = Z.abs (fvalue y * d - n) -> fvalue x <> fvalue y -> Z.even (fraction x) = true).
(** [x] is the float nearest to the integer [z] *)
Definition nearest_int {w} (x : word w) (z : Z) : Prop := nearest x (z * fone w) 1.
