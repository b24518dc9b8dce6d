(** What an argument of an elementwise operation means: its elements. *)
From Coq Require Import ZArith List Bool.
From Verif.Spec Require Import Seq NativeSpec.
From Verif.Model Require Import SimdArray SimdArrayOps.
Import ListNotations.
Local Open Scope Z_scope.

(** The i-th element an argument contributes. *)
Definition operand_at {A} (zero : A) (o : operand A) (i : Z) : A :=
  match o with
  | OTree t => znth zero (to_list t) i
  | OSeg xs p j => znth zero xs (i + Z.of_nat (j * (length xs / p)))
  | OScalar a => a
  end.

(** An argument that fits an [n] element operation. *)
Definition operand_ok {A} (n : nat) (o : operand A) : Prop :=
  match o with
  | OTree t => exists native, widths_ok native /\ wf native n t
  | OSeg xs p j => (exists a b, length xs = Nat.pow 2 a /\ p = Nat.pow 2 b /\ length xs = p * n)%nat /\ (j < p)%nat
  | OScalar _ => True
  end.

