(** What a SimdArray relies on from the native vector types of the build. *)
From Coq Require Import ZArith List Bool Permutation.
From Verif.Spec Require Import Seq.
From Verif.Model Require Import SimdArray.
Import ListNotations.
Local Open Scope Z_scope.

(** The native widths of a build: width 1 (Vc::Scalar) always exists and all widths are powers of
    two (sizes of SSE/AVX registers divided by the element size). *)
Definition widths_ok (native : nat -> bool) : Prop :=
  native 1%nat = true /\ forall n, native n = true -> exists k, n = Nat.pow 2 k.

(** Data movement operations of the native vectors with [n] entries behave as documented. *)
Record native_moves_ok {A} (native : nat -> bool) (zero : A) (ops : native_ops A) : Prop := {
  nm_shifted : forall xs k, native (length xs) = true ->
    n_shifted ops xs k = shift_spec zero xs k;
  nm_shifted_in : forall xs k s, native (length xs) = true -> length s = length xs ->
    - Z.of_nat (length xs) <= k <= Z.of_nat (length xs) ->
    n_shifted_in ops xs k s = shiftin_spec zero xs s k;
  nm_rotated : forall xs k, native (length xs) = true ->
    n_rotated ops xs k = rotate_spec zero xs k;
  nm_reversed : forall xs, native (length xs) = true -> n_reversed ops xs = rev xs;
  nm_interleave_low : forall xs ys, native (length xs) = true -> length xs = length ys ->
    n_interleave_low ops xs ys = firstn (length xs) (interleave_spec xs ys);
  nm_interleave_high : forall xs ys, native (length xs) = true -> length xs = length ys ->
    n_interleave_high ops xs ys = skipn (length xs) (interleave_spec xs ys)
}.

(** The native sorted() is correct for the order [le]. *)
Definition native_sorted_ok {A} (native : nat -> bool) (le : A -> A -> bool) (ops : native_ops A) : Prop :=
  forall xs, native (length xs) = true ->
    sorted_spec le (n_sorted ops xs) /\ Permutation (n_sorted ops xs) xs.

Definition native_partial_sum_ok {A} (native : nat -> bool) (add : A -> A -> A) (ops : native_ops A) : Prop :=
  forall xs, native (length xs) = true -> n_partial_sum ops xs = partial_sum_spec add xs.
