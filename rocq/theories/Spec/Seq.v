(** Specification vocabulary for sequences.  Nothing here refers to the model of the code:
    a SIMD object is specified by the list of its elements. *)
From Coq Require Import ZArith List Bool Lia.
Import ListNotations.
Local Open Scope Z_scope.

(** Element at position [z]; outside the sequence the value is [d]. *)
Definition znth {A} (d : A) (xs : list A) (z : Z) : A :=
  if (0 <=? z) && (z <? Z.of_nat (length xs)) then nth (Z.to_nat z) xs d else d.

(** The list [f 0; f 1; ...; f (n-1)]. *)
Definition tab {A} (n : nat) (f : Z -> A) : list A :=
  map (fun i => f (Z.of_nat i)) (seq 0 n).

(** [shifted(k)]: element i is x[i+k], [d] outside. *)
Definition shift_spec {A} (d : A) (xs : list A) (k : Z) : list A :=
  tab (length xs) (fun i => znth d xs (i + k)).

(** [shifted(k, s)]: element i+k of the sequence s ++ x ++ s where x sits at 0..n-1. *)
Definition shiftin_spec {A} (d : A) (xs s : list A) (k : Z) : list A :=
  tab (length xs) (fun i => znth d (s ++ xs ++ s) (i + k + Z.of_nat (length s))).

(** [rotated(k)]. *)
Definition rotate_spec {A} (d : A) (xs : list A) (k : Z) : list A :=
  tab (length xs) (fun i => znth d xs ((i + k) mod Z.of_nat (length xs))).

(** a0 b0 a1 b1 ... *)
Fixpoint interleave_spec {A} (xs ys : list A) : list A :=
  match xs, ys with
  | x :: xs', y :: ys' => x :: y :: interleave_spec xs' ys'
  | _, _ => []
  end.

(** x0, x0+x1, x0+x1+x2, ... *)
Fixpoint scan_spec {A} (add : A -> A -> A) (acc : A) (xs : list A) : list A :=
  match xs with
  | [] => []
  | x :: xs' => add acc x :: scan_spec add (add acc x) xs'
  end.
Definition partial_sum_spec {A} (add : A -> A -> A) (xs : list A) : list A :=
  match xs with
  | [] => []
  | x :: xs' => x :: scan_spec add x xs'
  end.

(** Left-to-right reduction of a non-empty list. *)
Definition reduce_spec {A} (f : A -> A -> A) (xs : list A) : option A :=
  match xs with
  | [] => None
  | x :: xs' => Some (fold_left f xs' x)
  end.

(** The selected elements, in order. *)
Fixpoint select_spec {A} (mask : list bool) (xs : list A) : list A :=
  match mask, xs with
  | b :: mask', x :: xs' => (if b then [x] else []) ++ select_spec mask' xs'
  | _, _ => []
  end.

Fixpoint map2 {A B C} (f : A -> B -> C) (xs : list A) (ys : list B) : list C :=
  match xs, ys with
  | x :: xs', y :: ys' => f x y :: map2 f xs' ys'
  | _, _ => []
  end.

Fixpoint map3 {A B C D} (f : A -> B -> C -> D) xs ys zs : list D :=
  match xs, ys, zs with
  | x :: xs', y :: ys', z :: zs' => f x y z :: map3 f xs' ys' zs'
  | _, _, _ => []
  end.

(** Elements where the mask is set are replaced. *)
Definition masked_update_spec {A} (mask : list bool) (new old : list A) : list A :=
  map3 (fun (b : bool) n o => if b then n else o) mask new old.

(** Non-decreasing order for a boolean order relation. *)
Fixpoint sorted_spec {A} (le : A -> A -> bool) (xs : list A) : Prop :=
  match xs with
  | [] => True
  | x :: xs' => (forall y, In y xs' -> le x y = true) /\ sorted_spec le xs'
  end.

(** Total orders as boolean relations. *)
Record total_order {A} (le : A -> A -> bool) : Prop := {
  to_total : forall x y, le x y = true \/ le y x = true;
  to_trans : forall x y z, le x y = true -> le y z = true -> le x z = true;
  to_antisym : forall x y, le x y = true -> le y x = true -> x = y
}.
