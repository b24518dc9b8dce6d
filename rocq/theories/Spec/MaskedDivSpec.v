(** Integer division of entries. *)
From Coq Require Import ZArith Bool.
From Verif.Spec Require Import CastSpec.
From Verif.Model Require Import Word SseInt SseBuild MaskedDiv.
Local Open Scope Z_scope.

(** x / y is a value of the element type *)
Definition divisible (e : etype) (x y : elt e) : Prop := int_value e y <> 0 /\ in_range e (Z.quot (int_value e x) (int_value e y)).

(** Every native vector of SimdArray<T, n> divides in floating point: n is a multiple of 8, and T is a 16-bit type in an
    SSE or AVX build or any integer type in an AVX2 build. *)
Definition divides_in_floating_point (b : div_build) (e : etype) (n : nat) : bool :=
  (n mod 8 =? 0)%nat && match b with
                        | DScalar => false
                        | DSse _ | DAvx false _ => (esize e =? 2)%nat
                        | DAvx true _ => true
                        end.
