(** The object representation of SimdArray and references to entries: a\[i\] op= x (Vc/common/elementreference.h). *)
From Coq Require Import ZArith List Bool.
From Verif.Spec Require Import Seq.
From Verif.Model Require Import SplitSize SimdArray SimdArrayOps.
Import ListNotations.
Local Open Scope Z_scope.

(** * Layout
    C++ places a member at the next multiple of its alignment; the alignment of a class is the largest of its members, its size
    a multiple of it (x86-64 ABI). *)
Definition round_up (x a : Z) : Z := (x + a - 1) / a * a.
(** utility.h:56-73 BoundedAlignment: [Some b] with the mask 2^b - 1 (31, 127 or 255), [None] for other compilers *)
Definition bounded (bound : option Z) (a : Z) : Z := match bound with Some b => Z.land (a - 1) (2 ^ b - 1) + 1 | None => a end.
(** size and alignment in bytes, the offsets in bytes of the entries *)
Record placed := { p_size : Z; p_align : Z; p_offsets : list Z }.
(** simdarray.h:506-511 (one vector of n entries of s bytes, aligned at its size), 1467-1473 (data0, data1) *)
Fixpoint placement (fuel : nat) (native : nat -> bool) (bound : option Z) (s : Z) (n : nat) : placed :=
  match fuel with
  | O => {| p_size := 0; p_align := 1; p_offsets := [] |}
  | S f =>
      let given := bounded bound (Z.of_nat (next_pow2 n) * s) in
      if native n then
        let a := Z.max (Z.of_nat n * s) given in
        {| p_size := round_up (Z.of_nat n * s) a; p_align := a; p_offsets := tab n (fun i => i * s) |}
      else
        let d0 := placement f native bound s (left_size n) in
        let d1 := placement f native bound s (right_size n) in
        let a := Z.max given (Z.max (p_align d0) (p_align d1)) in
        let at1 := round_up (p_size d0) (p_align d1) in
        {| p_size := round_up (at1 + p_size d1) a; p_align := a; p_offsets := p_offsets d0 ++ map (Z.add at1) (p_offsets d1) |}
  end.
Definition simdarray_placement native bound s n := placement n native bound s n.

(** * References
    Accessor::get and set of an object with entries of type A: SimdArray.get, SimdArrayOps.set for SimdArray (simdarray.h:374-384,
    1016-1025), [mask_get], [set] for SimdMaskArray (simdmaskarray.h:226-235, 598-617).  [f x] is the value of [x op y]
    converted to A, [inc x] that of ++x. *)
Section Reference.
  Context {A : Type} (get : sa A -> Z -> option A).
  (** elementreference.h:73-76 *)
  Definition ref_read (t : sa A) (i : Z) : option A := get t i.
  (** elementreference.h:78-84 *)
  Definition ref_assign (t : sa A) (i : Z) (v : A) : option (sa A) := x <-- get t i; Some (set t i v).
  (** elementreference.h:88-102 *)
  Definition ref_compound (f : A -> A) (t : sa A) (i : Z) : option (sa A) := x <-- get t i; Some (set t i (f x)).
  (** elementreference.h:104-113, 127-136 *)
  Definition ref_pre (inc : A -> A) (t : sa A) (i : Z) : option (sa A) := x <-- get t i; Some (set t i (inc x)).
  (** elementreference.h:115-125, 138-148: the old value and the new object *)
  Definition ref_post (inc : A -> A) (t : sa A) (i : Z) : option (A * sa A) := r <-- get t i; Some (r, set t i (inc r)).
  (** elementreference.h:150-154 swap(t\[i\], u\[j\]) of two objects, and of one *)
  Definition ref_swap2 (t : sa A) (i : Z) (u : sa A) (j : Z) : option (sa A * sa A) :=
    tmp <-- get t i; y <-- get u j; Some (set t i y, set u j tmp).
  Definition ref_swap1 (t : sa A) (i j : Z) : option (sa A) :=
    tmp <-- get t i; y <-- get t j; Some (set (set t i y) j tmp).
  (** elementreference.h:156-166 with a variable *)
  Definition ref_swap_value (t : sa A) (i : Z) (x : A) : option (sa A * A) := tmp <-- get t i; Some (set t i x, tmp).
End Reference.
