(** Vocabulary for the contents of memory (a cell that is not allocated holds [None]). *)
From Coq Require Import ZArith List.
From Verif.Model Require Import Mem.
Import ListNotations.
Local Open Scope Z_scope.

(** the cells from [base] on hold [xs] *)
Definition holds {A} (m : memory A) (base : Z) (xs : list A) : Prop :=
  forall i, (i < length xs)%nat -> m (base + Z.of_nat i) = nth_error xs i.
(** [m'] is [m] with [xs] written from [base] on, and nothing else changed *)
Definition replaced {A} (m : memory A) (base : Z) (xs : list A) (m' : memory A) : Prop :=
  holds m' base xs /\ forall a, a < base \/ base + Z.of_nat (length xs) <= a -> m' a = m a.
