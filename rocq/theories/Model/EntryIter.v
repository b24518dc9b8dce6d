(** Iterators over the entries of vectors, masks, SimdArrays and SimdMaskArrays: Vc::begin(v), Vc::end(v)
    (Vc/common/iterators.h:48-147, 202-235) and Vc::array (Vc/array). *)
From Coq Require Import ZArith List Bool.
From Verif.Spec Require Import Seq.
From Verif.Model Require Import Mem SimdArray SimdArrayOps ElementRef.
Import ListNotations.
Local Open Scope Z_scope.

(** iterators.h:144-146: the address of the vector and an index.  The index is an int; the sizes are less than 2^31, so that
    it does not overflow between begin and end. *)
Record iter := { on : Z; at_index : Z }.
(** iterators.h:202-219, 221-235; [size] is size() *)
Definition entry_begin (v : Z) : iter := {| on := v; at_index := 0 |}.
Definition entry_end (v : Z) (size : nat) : iter := {| on := v; at_index := Z.of_nat size |}.
(** iterators.h:116-133 *)
Definition next (a : iter) : iter := {| on := on a; at_index := at_index a + 1 |}.
Definition prev (a : iter) : iter := {| on := on a; at_index := at_index a - 1 |}.
Definition plus (a : iter) (d : Z) : iter := {| on := on a; at_index := at_index a + d |}.
Definition minus (a : iter) (d : Z) : iter := {| on := on a; at_index := at_index a - d |}.
Definition difference (a b : iter) : Z := at_index a - at_index b.
(** iterators.h:137-142 *)
Definition same_vector (a b : iter) : bool := on a =? on b.
Definition equal (a b : iter) : bool := same_vector a b && (at_index a =? at_index b).
Definition unequal (a b : iter) : bool := same_vector a b && negb (at_index a =? at_index b).
Definition less (a b : iter) : bool := same_vector a b && (at_index a <? at_index b).
Definition less_equal (a b : iter) : bool := same_vector a b && (at_index a <=? at_index b).
Definition greater (a b : iter) : bool := same_vector a b && (at_index a >? at_index b).
Definition greater_equal (a b : iter) : bool := same_vector a b && (at_index a >=? at_index b).

Section Entries.
  Context {A : Type} (get : sa A -> Z -> option A).  (* operator\[\] of the vector or mask, as in ElementRef.v *)
  (** iterators.h:57, 75, 86-89; the vector the iterator points to is [t] *)
  Definition deref (t : sa A) (a : iter) : option A := ref_read get t (at_index a).
  (** iterators.h:58, 76: it\[i2\] *)
  Definition subscript (t : sa A) (a : iter) (i2 : Z) : option A := ref_read get t i2.
  (** iterators.h:90-93 with elementreference.h:88-102: *it = f( *it ) *)
  Definition deref_update (f : A -> A) (t : sa A) (a : iter) : option (sa A) := ref_compound get f t (at_index a).
  (** for (auto it = begin(v); it != end(v); ++it) out.push_back( *it ), i.e. for (auto x : v) *)
  Fixpoint read_entries (fuel : nat) (t : sa A) (a e : iter) : option (list A) :=
    if unequal a e then
      match fuel with
      | O => None
      | S fuel' => x <-- deref t a; r <-- read_entries fuel' t (next a) e; Some (x :: r)
      end
    else Some [].
  (** for (auto it = begin(v); it != end(v); ++it) *it = f( *it ) *)
  Fixpoint update_entries (fuel : nat) (f : A -> A) (t : sa A) (a e : iter) : option (sa A) :=
    if unequal a e then
      match fuel with
      | O => None
      | S fuel' => t' <-- deref_update f t a; update_entries fuel' f t' (next a) e
      end
    else Some t.
End Entries.
