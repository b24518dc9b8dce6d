(** Meaning of the mask queries in terms of the booleans, and what SimdMaskArray / masked
    operations rely on from native masks and vectors. *)
From Coq Require Import ZArith List Bool.
From Verif.Spec Require Import Seq.
From Verif.Model Require Import SimdArrayOps.
Import ListNotations.
Local Open Scope Z_scope.

Fixpoint count_spec (m : list bool) : Z :=
  match m with [] => 0 | b :: m' => (if b then 1 else 0) + count_spec m' end.

(** bit i is m[i] *)
Fixpoint to_int_spec (m : list bool) : Z :=
  match m with [] => 0 | b :: m' => (if b then 1 else 0) + 2 * to_int_spec m' end.

(** [i] is the smallest index of a set entry *)
Definition first_one_spec (m : list bool) (i : Z) : Prop :=
  znth false m i = true /\ forall j, 0 <= j < i -> znth false m j = false.

Definition all_spec (m : list bool) : Prop := forall b, In b m -> b = true.
Definition none_spec (m : list bool) : Prop := forall b, In b m -> b = false.

Record native_masks_ok (native : nat -> bool) (K : native_mask_ops) : Prop := {
  ko_full : forall m, native (length m) = true -> (k_full K m = true <-> all_spec m);
  ko_not_empty : forall m, native (length m) = true -> (k_not_empty K m = true <-> ~ none_spec m);
  ko_empty : forall m, native (length m) = true -> (k_empty K m = true <-> none_spec m);
  ko_to_int : forall m, native (length m) = true -> k_to_int K m = to_int_spec m;
  ko_count : forall m, native (length m) = true -> k_count K m = count_spec m;
  ko_first : forall m, native (length m) = true -> ~ none_spec m -> first_one_spec m (k_first K m);
  ko_eq : forall m m', native (length m) = true -> length m = length m' -> (k_eq K m m' = true <-> m = m');
  ko_neq : forall m m', native (length m) = true -> length m = length m' -> (k_neq K m m' = true <-> m <> m')
}.

(** Native reductions and blends. *)
Definition native_reduce_ok {A} (native : nat -> bool) (f : A -> A -> A) (red : list A -> A) : Prop :=
  forall xs, native (length xs) = true -> reduce_spec f xs = Some (red xs).
Definition native_reduce_masked_ok {A} (native : nat -> bool) (f : A -> A -> A) (mred : list A -> list bool -> A) : Prop :=
  forall xs m, native (length xs) = true -> length m = length xs -> ~ none_spec m ->
    reduce_spec f (select_spec m xs) = Some (mred xs m).
Definition native_assign_ok {A} (native : nat -> bool) (nassign : list A -> list A -> list bool -> list A) : Prop :=
  forall xs vs m, native (length xs) = true -> length vs = length xs -> length m = length xs ->
    nassign xs vs m = masked_update_spec m vs xs.
Definition native_zero_inverted_ok {A} (native : nat -> bool) (zero : A) (nszi : list A -> list bool -> list A) : Prop :=
  forall xs m, native (length xs) = true -> length m = length xs ->
    nszi xs m = map2 (fun x (b : bool) => if b then x else zero) xs m.
