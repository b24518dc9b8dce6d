(** Vc::Memory (Vc/common/memory.h, Vc/common/memorybase.h).
    Memory cells hold one EntryType each; an object is its first cell [base] and its number of vectors
    and entries.  Accesses to unallocated cells are [None].  size_t arithmetic wraps at 2^64. *)
From Coq Require Import ZArith List Bool.
From Verif.Spec Require Import Seq.
From Verif.Model Require Import Mem SimdArray.
Import ListNotations.
Local Open Scope Z_scope.

Definition size_t (z : Z) : Z := z mod 2 ^ 64.
(** an offset added to a pointer *)
Definition offset (z : Z) : Z := let u := size_t z in if u <? 2 ^ 63 then u else u - 2 ^ 64.

Section Memory.
  Context {A : Type} (zero : A) (width : nat).  (* V::Size *)
  Notation W := (Z.of_nat width).

  (** memory.h:45-54, 210-213 (compile time), 379-383 (calcPaddedEntriesCount) *)
  Definition padded_size (size : Z) : Z :=
    let masked := Z.land size (size_t (W - 1)) in
    if masked =? 0 then size else size_t (size + size_t (W - masked)).
  (** memory.h:224, 399 *)
  Definition vectors_count (size : Z) : Z := padded_size size / W.

  (** memorybase.h:432-453 vector(i); 474-496 vectorAt(i); 525-545 vector(i, shift) *)
  Definition vec_addr (base i : Z) : Z := base + offset (i * W).
  Definition load_vector (m : memory A) (base i : Z) : option (list A) := mem_load m (vec_addr base i) width.
  Definition load_vector_at (m : memory A) (base i : Z) : option (list A) := mem_load m (base + offset i) width.
  Definition load_vector_shift (m : memory A) (base i shift : Z) : option (list A) := mem_load m (base + offset (i * W + shift)) width.
  (** memorybase.h:93-99 vector(i) = v *)
  Definition store_vector (m : memory A) (base i : Z) (v : list A) : option (memory A) := mem_store m (vec_addr base i) v.
  (** memorybase.h:570-581: vector(vectorsCount() - 1) *)
  Definition store_last (m : memory A) (base count : Z) (v : list A) : option (memory A) := store_vector m base (count - 1) v.

  (** memory.h:227-232 Memory() *)
  Definition ctor (init_padding : bool) (m : memory A) (base size : Z) : option (memory A) :=
    if init_padding then store_last m base (vectors_count size) (repeat zero width) else Some m.
  (** memory.h:234-239 Memory({...}) *)
  Definition ctor_list (m : memory A) (base size : Z) (init : list A) : option (memory A) :=
    m1 <-- store_last m base (vectors_count size) (repeat zero width);
    mem_store m1 base init.
  (** memory.h:394-401 Memory(size); [base] is what malloc returned for padded_size size entries *)
  Definition ctor_dynamic (m : memory A) (base size : Z) : option (memory A) :=
    store_last m base (vectors_count size) (repeat zero width).

  (** The loops "for (size_t i = 0; i < vectorsCount(); ++i)" *)
  Fixpoint for_vectors (n : nat) (i : Z) (body : Z -> memory A -> option (memory A)) (m : memory A) : option (memory A) :=
    match n with
    | O => Some m
    | S n' => m' <-- body i m; for_vectors n' (i + 1) body m'
    end.
  (** memory.h:316-321, 147-152; memorybase.h:591-596 (v = 0), 601-606 *)
  Definition assign_vector (m : memory A) (base count : Z) (v : list A) : option (memory A) :=
    for_vectors (Z.to_nat count) 0 (fun i m => store_vector m base i v) m.
  Definition set_zero (m : memory A) (base count : Z) : option (memory A) := assign_vector m base count (repeat zero width).
  (** memorybase.h:611-654: vector(i) op= rhs.vector(i); [op] acts on each lane *)
  Definition op_assign (op : A -> A -> A) (m : memory A) (base rhs count : Z) : option (memory A) :=
    for_vectors (Z.to_nat count) 0 (fun i m =>
      x <-- load_vector m base i;
      y <-- load_vector m rhs i;
      store_vector m base i (map2 op x y)) m.
  (** memorybase.h:659-698: vector(i) op= V(scalar) *)
  Definition op_assign_scalar (op : A -> A -> A) (m : memory A) (base count : Z) (s : A) : option (memory A) :=
    for_vectors (Z.to_nat count) 0 (fun i m =>
      x <-- load_vector m base i;
      store_vector m base i (map2 op x (repeat s width))) m.
  (** memory.h:312-315, 494-497: memcpy of entriesCount() entries *)
  Definition assign_pointer (m : memory A) (base entries src : Z) : option (memory A) :=
    xs <-- mem_load m src (Z.to_nat entries);
    mem_store m base xs.

  (** memorybase.h:787-811 copyVectors: the loop over four vectors at a time, then the rest *)
  Fixpoint copy4 (fuel : nat) (dst src i count : Z) (m : memory A) : option (Z * memory A) :=
    if i <? count then
      match fuel with
      | O => None
      | S fuel' =>
          tmp3 <-- load_vector m src (i - 3);
          tmp2 <-- load_vector m src (i - 2);
          tmp1 <-- load_vector m src (i - 1);
          tmp0 <-- load_vector m src (i - 0);
          m <-- store_vector m dst (i - 3) tmp3;
          m <-- store_vector m dst (i - 2) tmp2;
          m <-- store_vector m dst (i - 1) tmp1;
          m <-- store_vector m dst (i - 0) tmp0;
          copy4 fuel' dst src (i + 4) count m
      end
    else Some (i, m).
  Fixpoint copy1 (fuel : nat) (dst src i count : Z) (m : memory A) : option (memory A) :=
    if i <? count then
      match fuel with
      | O => None
      | S fuel' =>
          tmp <-- load_vector m src i;
          m <-- store_vector m dst i tmp;
          copy1 fuel' dst src (i + 1) count m
      end
    else Some m.
  (** copy constructors and assignments: memory.h:129-138, 288-310, 410-432, 472-483 *)
  Definition copy_vectors (m : memory A) (dst src count : Z) : option (memory A) :=
    r <-- copy4 (Z.to_nat count) dst src 3 count m;
    copy1 (Z.to_nat count) dst src (fst r - 3) count (snd r).

  (** memorybase.h:703-782: comparisons; [ok] is isFull() / isEmpty() of the lane results *)
  Fixpoint compare_loop (ok : list bool -> bool) (rel : A -> A -> bool) (n : nat) (i a b : Z) (m : memory A) : option bool :=
    match n with
    | O => Some true
    | S n' =>
        x <-- load_vector m a i;
        y <-- load_vector m b i;
        if negb (ok (map2 rel x y)) then Some false else compare_loop ok rel n' (i + 1) a b m
    end.
  Definition is_full (k : list bool) : bool := forallb (fun b => b) k.
  Definition is_empty (k : list bool) : bool := forallb negb k.
  (** ==, <, <=, >, >= with the corresponding [rel] *)
  Definition memory_rel (rel : A -> A -> bool) (m : memory A) (a b count : Z) : option bool := compare_loop is_full rel (Z.to_nat count) 0 a b m.
  (** memorybase.h:717-726 operator!= *)
  Definition memory_ne (eq : A -> A -> bool) (m : memory A) (a b count : Z) : option bool := compare_loop is_empty eq (Z.to_nat count) 0 a b m.

  (** Two dimensions, memory.h:66-153: m_mem is an array of [rows] one-dimensional objects.
      memorybase.h:318-338 entries(x), scalar(i, j) *)
  Definition row_base (base columns x : Z) : Z := base + x * padded_size columns.
  Definition vectors_count_2d (rows columns : Z) : Z := vectors_count columns * rows.
  (** memory.h:95 Memory() = default: every row is default-constructed *)
  Fixpoint ctor_rows (init_padding : bool) (n : nat) (x : Z) (m : memory A) (base columns : Z) : option (memory A) :=
    match n with
    | O => Some m
    | S n' => m' <-- ctor init_padding m (row_base base columns x) columns; ctor_rows init_padding n' (x + 1) m' base columns
    end.
End Memory.
