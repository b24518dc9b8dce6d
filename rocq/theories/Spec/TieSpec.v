(** Reading several consecutive numbers of each object at once *)
From Coq Require Import ZArith List.
From Verif.Spec Require Import Seq SubscriptSpec.
From Verif.Model Require Import Mem.
Import ListNotations.
Local Open Scope Z_scope.

(** The size of the objects the last index vector of the way counts: those of the array data\[\], or the elements of the array
    in them that has the last inner index vector *)
Fixpoint indexed_size (s : Z) (t : ctype) (p : list step) : Z :=
  match p, t with
  | Member k :: r, Class _ ms => match nth_error ms k with Some (_, u) => indexed_size s u r | None => s end
  | At j :: r, Array _ u => indexed_size s u r
  | AtEach js :: r, Array _ u => indexed_size (sizeof u) u r
  | _, _ => s
  end.
(** The way has no inner index vector *)
Fixpoint fixed_way (p : list step) : Prop := match p with [] => True | AtEach _ :: _ => False | _ :: r => fixed_way r end.

(** [k] vectors of [n] entries: entry e of vector c is the c-th number of w bytes from the address [at_ e] on *)
Definition consecutive_read {A} (n k : nat) (w : Z) (at_ : Z -> Z) (m : memory A) (vs : list (list A)) : Prop :=
  length vs = k /\
  forall c v, nth_error vs c = Some v -> length v = n /\
    forall e, (e < n)%nat -> m (at_ (Z.of_nat e) + w * Z.of_nat c) = nth_error v e.
(** The first [k] numbers from each of the [n] addresses on are readable *)
Definition consecutive_mapped {A} (n k : nat) (w : Z) (at_ : Z -> Z) (m : memory A) : Prop :=
  forall e c, (e < n)%nat -> (c < k)%nat -> m (at_ (Z.of_nat e) + w * Z.of_nat c) <> None.

(** struct { float x, y; } and struct { float x, y, z; } *)
Definition point2 : ctype := Class 8 [(0, Number 4); (4, Number 4)].
Definition point3 : ctype := Class 12 [(0, Number 4); (4, Number 4); (8, Number 4)].
