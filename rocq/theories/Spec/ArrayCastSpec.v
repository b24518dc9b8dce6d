(** Specification vocabulary for conversions between vectors of different types and sizes. *)
From Coq Require Import ZArith List Bool.
Import ListNotations.
Local Open Scope nat_scope.

(** Entries [off], [off + 1], ..., [off + m - 1] of a vector; [None] past its end *)
Definition part {A} (m off : nat) (xs : list A) : list (option A) := map (nth_error xs) (seq off m).
(** [R x y]: y is a correct conversion of x.  [pad y]: y is allowed where there is no entry to convert. *)
Definition becomes {A B} (R : A -> B -> Prop) (pad : B -> Prop) (x : option A) (y : B) : Prop :=
  match x with Some a => R a y | None => pad y end.
(** [ys] has m entries; entry i is a conversion of entry [off + i] of [xs], and padding past its end. *)
Definition converts {A B} (R : A -> B -> Prop) (pad : B -> Prop) (m off : nat) (xs : list A) (ys : list B) : Prop :=
  Forall2 (becomes R pad) (part m off xs) ys.
Definition power_of_two (n : nat) : Prop := exists j, n = Nat.pow 2 j.
