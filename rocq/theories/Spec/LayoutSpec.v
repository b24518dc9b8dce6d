(** Addresses: rounding up, and lists with one entry replaced. *)
From Coq Require Import ZArith List Bool.
From Verif.Spec Require Import Seq.
Import ListNotations.
Local Open Scope Z_scope.

(** the smallest multiple of a that is not below x *)
Definition rounded_up (x a r : Z) : Prop := x <= r < x + a /\ (a | r).
(** ys is xs except for entry i, which is v *)
Definition replaced {A} (xs : list A) (i : Z) (v : A) (ys : list A) : Prop :=
  length ys = length xs /\ forall k, 0 <= k < Z.of_nat (length xs) -> nth_error ys (Z.to_nat k) = if k =? i then Some v else nth_error xs (Z.to_nat k).
