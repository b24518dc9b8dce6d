(** Iterators over the vectors of a Vc::Memory (Vc/common/memorybase.h:57-204, 397-410).
    A MemoryVectorIterator is the address of a vector, counted in entries; MemoryVector has the size of V::Size entries
    (memorybase.h:69).  Accesses to unallocated cells are [None]; size_t arithmetic wraps at 2^64. *)
From Coq Require Import ZArith List Bool.
From Verif.Spec Require Import Seq.
From Verif.Model Require Import Mem SimdArray MemoryClass.
Import ListNotations.
Local Open Scope Z_scope.

Section Iterators.
  Context {A : Type} (width : nat).  (* V::Size *)
  Notation W := (Z.of_nat width).

  (** memorybase.h:136-143: ++, --, +=, -=, +, - move the pointer by vectors *)
  Definition it_next (d : Z) : Z := d + W.
  Definition it_prev (d : Z) : Z := d - W.
  Definition it_plus (d n : Z) : Z := d + offset (n * W).
  Definition it_minus (d n : Z) : Z := d - offset (n * W).
  (** memorybase.h:132: difference of pointers *)
  Definition it_difference (d e : Z) : Z := (d - e) / W.
  (** memorybase.h:146-175: by address *)
  Definition it_eq (d e : Z) : bool := d =? e.
  Definition it_lt (d e : Z) : bool := d <? e.
  Definition it_le (d e : Z) : bool := d <=? e.
  (** memorybase.h:84, 134: the value of *it *)
  Definition it_value (m : memory A) (d : Z) : option (list A) := mem_load m d width.
  (** memorybase.h:93-99: *it = v *)
  Definition it_assign (m : memory A) (d : Z) (v : list A) : option (memory A) := mem_store m d v.
  (** memorybase.h:133: it[n] *)
  Definition it_at (m : memory A) (d n : Z) : option (list A) := mem_load m (d + offset (n * W)) width.

  (** memorybase.h:397-401 begin(): the address of vector(0) *)
  Definition it_begin (base : Z) : Z := vec_addr width base 0.
  (** memorybase.h:406-410 end(): one past the address of vector(vectorsCount() - 1); size_t arithmetic *)
  Definition it_end (base count : Z) : Z := vec_addr width base (size_t (count - 1)) + W.
  (** memorybase.h:191-204, 264-277 range(first, last) *)
  Definition range_begin (base first : Z) : Z := vec_addr width base first.
  Definition range_end (base last : Z) : Z := vec_addr width base (size_t (last + 1)).

  (** for (auto it = begin; it != end; ++it): the iterators it visits; [fuel] bounds the number of steps *)
  Fixpoint visited (fuel : nat) (d e : Z) : option (list Z) :=
    if negb (it_eq d e) then
      match fuel with
      | O => None
      | S fuel' => option_map (cons d) (visited fuel' (it_next d) e)
      end
    else Some [].
  (** for (auto it = begin; it != end; ++it) out.push_back( *it ) *)
  Fixpoint read_all (fuel : nat) (m : memory A) (d e : Z) : option (list (list A)) :=
    if negb (it_eq d e) then
      match fuel with
      | O => None
      | S fuel' => v <-- it_value m d; r <-- read_all fuel' m (it_next d) e; Some (v :: r)
      end
    else Some [].
  (** for (auto it = begin; it != end; ++it) *it = f( *it ); [f] acts on a whole vector.  memorybase.h:41-47: also *it op= x *)
  Fixpoint update_all (fuel : nat) (f : list A -> list A) (m : memory A) (d e : Z) : option (memory A) :=
    if negb (it_eq d e) then
      match fuel with
      | O => None
      | S fuel' => v <-- it_value m d; m' <-- it_assign m d (f v); update_all fuel' f m' (it_next d) e
      end
    else Some m.
End Iterators.
