(** Vc::Memory and aligned allocation *)
From Coq Require Import ZArith List Bool Lia.
From Verif.Spec Require Import Seq MemSpec.
From Verif.Model Require Import SimdArray Mem MemoryClass Malloc.
Import ListNotations.
Local Open Scope Z_scope.
From Verif.Proof Require MemoryMain.

(** C29: Memory<V, N> and Memory<V>(n) have a whole number of vectors, which cover all entries with less than one
vector of padding (for every vector size that is a power of two and every n < 2^62). *)
Theorem C29_padding :
  forall k w n, w = (2 ^ k)%nat -> Z.of_nat w < 2 ^ 62 -> 0 <= n < 2 ^ 62 ->
    padded_size w n = vectors_count w n * Z.of_nat w /\ n <= padded_size w n < n + Z.of_nat w.
Proof. exact MemoryMain.C29_padding_main. Qed.
Print Assumptions C29_padding.

Example C29_padding_ex :
  padded_size 8 11 = 16 /\ vectors_count 8 11 = 2 /\ padded_size 8 16 = 16.
Proof.
  vm_compute. auto.
Qed.

(** Finding: for a vector type whose size is not a power of two (Memory accepts SimdArray<float, 12> in an SSE build:
48 is a multiple of the memory alignment 16) the padded size is wrong: 4 entries get no vector at all, and the
12 entries of the only vector do not cover 13 entries. *)
Theorem C29_padding_refuted :
  vectors_count 12 4 = 0 /\ vectors_count 12 13 * 12 < 13.
Proof. exact MemoryMain.C29_padding_refuted_main. Qed.
Print Assumptions C29_padding_refuted.

Example C29_padding_refuted_ex :
  (12 * 4) mod 16 = 0.
Proof.
  reflexivity.
Qed.

(** C29: vector(i) for i < vectorsCount() is in bounds and is the i-th block of the entries; entry j of vector(i) is
scalar(i * V::Size + j). *)
Theorem C29_vectors_partition :
  forall (A : Type) (d : A) w count (m : memory A) base xs i,
    length xs = (count * w)%nat -> Z.of_nat (count * w) < 2 ^ 63 -> holds m base xs -> (i < count)%nat ->
    load_vector w m base (Z.of_nat i) = Some (tab w (fun j => znth d xs (Z.of_nat i * Z.of_nat w + j))) /\
    forall j, 0 <= j < Z.of_nat w -> m (base + (Z.of_nat i * Z.of_nat w + j)) = Some (znth d xs (Z.of_nat i * Z.of_nat w + j)).
Proof. exact MemoryMain.C29_vectors_partition_main. Qed.
Print Assumptions C29_vectors_partition.

Example C29_vectors_partition_ex :
  let m : memory Z := fun a => if (0 <=? a) && (a <? 8) then Some (10 * a) else None in
  holds m 0 [0; 10; 20; 30; 40; 50; 60; 70] /\ load_vector 4 m 0 1 = Some [40; 50; 60; 70].
Proof.
  cbn zeta. split; [|reflexivity]. intros i Hi. cbn [length] in Hi. do 8 (destruct i as [|i]; [reflexivity|]). lia.
Qed.

(** C29: vectorAt(i) and vector(i, shift) read V::Size consecutive entries starting at entry i resp.
i * V::Size + shift (shift may be negative). *)
Theorem C29_vector_at :
  forall (A : Type) w (m : memory A) base xs i shift,
    Z.of_nat (length xs) < 2 ^ 63 -> holds m base xs ->
    (0 <= i /\ i + Z.of_nat w <= Z.of_nat (length xs) -> load_vector_at w m base i = Some (firstn w (skipn (Z.to_nat i) xs))) /\
    (let s := i * Z.of_nat w + shift in
     0 <= s /\ s + Z.of_nat w <= Z.of_nat (length xs) -> load_vector_shift w m base i shift = Some (firstn w (skipn (Z.to_nat s) xs))).
Proof. exact MemoryMain.C29_vector_at_main. Qed.
Print Assumptions C29_vector_at.

Example C29_vector_at_ex :
  let m : memory Z := fun a => if (0 <=? a) && (a <? 8) then Some (10 * a) else None in
  load_vector_shift 4 m 0 1 (-2) = Some [20; 30; 40; 50].
Proof.
  reflexivity.
Qed.

(** C29: the default constructor of Memory<V, N> with InitPadding and the constructor Memory<V>(n) write only inside the
object, only to its last vector, and leave all padding entries zero; without InitPadding nothing is written. *)
Theorem C29_constructor :
  forall (A : Type) (zero : A) k w n (m : memory A) base xs,
    w = (2 ^ k)%nat -> Z.of_nat w < 2 ^ 62 -> 1 <= n < 2 ^ 62 -> Z.of_nat (length xs) = padded_size w n -> holds m base xs ->
    ctor zero w false m base n = Some m /\
    exists m', ctor zero w true m base n = Some m' /\ ctor_dynamic zero w m base n = Some m' /\
      (forall a, base + n <= a < base + padded_size w n -> m' a = Some zero) /\
      (forall a, a < base + padded_size w n - Z.of_nat w \/ base + padded_size w n <= a -> m' a = m a).
Proof. exact MemoryMain.C29_constructor_main. Qed.
Print Assumptions C29_constructor.

Example C29_constructor_ex :
  option_map (fun m : memory Z => map m [-1; 0; 3; 4; 5; 6; 7; 8]) (ctor_dynamic 0 4 (fun a => if (0 <=? a) && (a <? 8) then Some 9 else None) 0 6) =
    Some [None; Some 9; Some 9; Some 0; Some 0; Some 0; Some 0; None].
Proof.
  vm_compute. reflexivity.
Qed.

(** Finding: Memory<V>(0) writes a whole vector of zeros before the allocated memory (undefined behaviour). *)
Theorem C29_constructor_refuted :
  forall (A : Type) (zero : A) k w (m : memory A) base, w = (2 ^ k)%nat -> Z.of_nat w < 2 ^ 62 ->
    (m (base - Z.of_nat w) = None -> ctor_dynamic zero w m base 0 = None) /\
    (forall xs, length xs = w -> holds m (base - Z.of_nat w) xs ->
       exists m', ctor_dynamic zero w m base 0 = Some m' /\ replaced m (base - Z.of_nat w) (repeat zero w) m').
Proof. exact MemoryMain.C29_constructor_refuted_main. Qed.
Print Assumptions C29_constructor_refuted.

Example C29_constructor_refuted_ex :
  ctor_dynamic 0 4 (fun _ => None) 0 0 = None.
Proof.
  vm_compute. reflexivity.
Qed.

(** C29: Memory<V, N>({...}) stores the given values at the beginning and writes zero to all padding entries. *)
Theorem C29_initializer_list :
  forall (A : Type) (zero : A) k w n (m : memory A) base xs init,
    w = (2 ^ k)%nat -> Z.of_nat w < 2 ^ 62 -> 1 <= n < 2 ^ 62 -> Z.of_nat (length xs) = padded_size w n -> holds m base xs ->
    Z.of_nat (length init) <= n ->
    exists m', ctor_list zero w m base n init = Some m' /\ holds m' base init /\
      (forall a, base + n <= a < base + padded_size w n -> m' a = Some zero) /\
      (forall a, a < base \/ base + padded_size w n <= a -> m' a = m a).
Proof. exact MemoryMain.C29_initializer_list_main. Qed.
Print Assumptions C29_initializer_list.

Example C29_initializer_list_ex :
  option_map (fun m : memory Z => map m [-1; 0; 1; 2; 3; 4; 5; 6; 7; 8])
    (ctor_list 0 4 (fun a => if (0 <=? a) && (a <? 8) then Some 9 else None) 0 6 [1; 2; 3]) =
    Some [None; Some 1; Some 2; Some 3; Some 9; Some 0; Some 0; Some 0; Some 0; None].
Proof.
  vm_compute. reflexivity.
Qed.

(** C29: in a two-dimensional Memory<V, Rows, Columns> different entries have different addresses inside the object, every
row starts at a whole vector, and vector(i) of row x is vector(x * (vectors per row) + i) of the whole object. *)
Theorem C29_two_dimensions :
  forall k w rows columns base, w = (2 ^ k)%nat -> Z.of_nat w < 2 ^ 62 -> 0 <= columns < 2 ^ 62 -> 0 <= rows ->
    rows * padded_size w columns < 2 ^ 63 ->
    vectors_count_2d w rows columns * Z.of_nat w = rows * padded_size w columns /\
    (forall x y, 0 <= x < rows -> 0 <= y < columns ->
       base <= row_base w base columns x + y < base + vectors_count_2d w rows columns * Z.of_nat w) /\
    (forall x y x' y', 0 <= x < rows -> 0 <= y < columns -> 0 <= x' < rows -> 0 <= y' < columns ->
       row_base w base columns x + y = row_base w base columns x' + y' -> x = x' /\ y = y') /\
    (forall x i, 0 <= x < rows -> 0 <= i < vectors_count w columns ->
       vec_addr w (row_base w base columns x) i = vec_addr w base (x * vectors_count w columns + i)).
Proof. exact MemoryMain.C29_two_dimensions_main. Qed.
Print Assumptions C29_two_dimensions.

Example C29_two_dimensions_ex :
  vectors_count_2d 4 3 5 = 6 /\ row_base 4 100 5 2 = 116.
Proof.
  vm_compute. auto.
Qed.

(** C29: if an object is aligned to the memory alignment [al] of its vector type (which divides the bytes of a vector, a
static_assert of MemoryBase), every vector(i) is aligned. *)
Theorem C29_alignment :
  forall al es w base_bytes i, 0 < al -> (Z.of_nat w * es) mod al = 0 -> base_bytes mod al = 0 ->
    0 <= i * Z.of_nat w < 2 ^ 63 -> (base_bytes + es * (vec_addr w 0 i)) mod al = 0.
Proof. exact MemoryMain.C29_alignment_main. Qed.
Print Assumptions C29_alignment.

Example C29_alignment_ex :
  (4096 + 4 * vec_addr 4 0 7) mod 16 = 0.
Proof.
  reflexivity.
Qed.

(** C30: copying or assigning a Memory of [count] vectors makes the destination hold exactly the entries of the source (all
of them, including padding) and changes nothing else; this holds for different objects and for self-assignment. *)
Theorem C30_copy :
  forall (A : Type) w count (m : memory A) dst src old xs,
    Z.of_nat (count * w) < 2 ^ 63 -> length old = (count * w)%nat -> length xs = (count * w)%nat ->
    holds m dst old -> holds m src xs -> dst = src \/ dst + Z.of_nat (count * w) <= src \/ src + Z.of_nat (count * w) <= dst ->
    exists m', copy_vectors w m dst src (Z.of_nat count) = Some m' /\ replaced m dst xs m'.
Proof. exact MemoryMain.C30_copy_main. Qed.
Print Assumptions C30_copy.

Example C30_copy_ex :
  let m : memory Z := fun a => if (0 <=? a) && (a <? 28) then Some a else None in
  option_map (fun m' => map m' (tab 29 (fun i => i - 1))) (copy_vectors 2 m 0 14 7) =
    Some (None :: map Some (tab 14 (fun i => i + 14) ++ tab 14 (fun i => i + 14))).
Proof.
  vm_compute. reflexivity.
Qed.

(** C30: a op= b acts on every entry exactly once, for every lane operation op and also when b is a itself. *)
Theorem C30_operator_assign :
  forall (A : Type) w count (m : memory A) (op : A -> A -> A) dst rhs xs ys,
    Z.of_nat (count * w) < 2 ^ 63 -> length xs = (count * w)%nat -> length ys = (count * w)%nat ->
    holds m dst xs -> holds m rhs ys -> dst = rhs \/ dst + Z.of_nat (count * w) <= rhs \/ rhs + Z.of_nat (count * w) <= dst ->
    exists m', op_assign w op m dst rhs (Z.of_nat count) = Some m' /\ replaced m dst (map2 op xs ys) m'.
Proof. exact MemoryMain.C30_operator_assign_main. Qed.
Print Assumptions C30_operator_assign.

Example C30_operator_assign_ex :
  let m : memory Z := fun a => if (0 <=? a) && (a <? 4) then Some (a + 1) else None in
  option_map (fun m' => map m' [0; 1; 2; 3; 4]) (op_assign 2 Z.mul m 0 0 2) = Some [Some 1; Some 4; Some 9; Some 16; None].
Proof.
  vm_compute. reflexivity.
Qed.

(** C30: a op= s acts on every entry (and the padding) exactly once; a = v and setZero() fill all vectors. *)
Theorem C30_operator_assign_scalar :
  forall (A : Type) w count (m : memory A) (op : A -> A -> A) (zero s : A) dst xs v,
    Z.of_nat (count * w) < 2 ^ 63 -> length xs = (count * w)%nat -> holds m dst xs -> length v = w ->
    (exists m', op_assign_scalar w op m dst (Z.of_nat count) s = Some m' /\ replaced m dst (map (fun x => op x s) xs) m') /\
    (exists m', assign_vector w m dst (Z.of_nat count) v = Some m' /\ replaced m dst (concat (repeat v count)) m') /\
    (exists m', set_zero zero w m dst (Z.of_nat count) = Some m' /\ replaced m dst (concat (repeat (repeat zero w) count)) m').
Proof. exact MemoryMain.C30_operator_assign_scalar_main. Qed.
Print Assumptions C30_operator_assign_scalar.

Example C30_operator_assign_scalar_ex :
  let m : memory Z := fun a => if (0 <=? a) && (a <? 4) then Some (a + 1) else None in
  option_map (fun m' => map m' [0; 1; 2; 3; 4]) (assign_vector 2 m 0 2 [7; 8]) = Some [Some 7; Some 8; Some 7; Some 8; None].
Proof.
  vm_compute. reflexivity.
Qed.

(** C30: a = pointer copies exactly the entries, not the padding. *)
Theorem C30_assign_pointer :
  forall (A : Type) (m : memory A) dst src old xs,
    length old = length xs -> holds m dst old -> holds m src xs ->
    exists m', assign_pointer m dst (Z.of_nat (length xs)) src = Some m' /\ replaced m dst xs m'.
Proof. exact MemoryMain.C30_assign_pointer_main. Qed.
Print Assumptions C30_assign_pointer.

Example C30_assign_pointer_ex :
  let m : memory Z := fun a => if (0 <=? a) && (a <? 6) then Some (a + 1) else None in
  option_map (fun m' => map m' [0; 1; 2; 3; 4; 5; 6]) (assign_pointer m 0 3 3) = Some [Some 4; Some 5; Some 6; Some 4; Some 5; Some 6; None].
Proof.
  vm_compute. reflexivity.
Qed.

(** C31: a == b, a < b, a <= b, a > b, a >= b (with [rel] the comparison of two entries) hold iff it holds for every pair
of cells of the two objects.  What is missing for the full claim: the padding cells take part (see below). *)
Theorem C31_comparison_partial :
  forall (A : Type) w count (rel : A -> A -> bool) (m : memory A) a b xs ys,
    Z.of_nat (count * w) < 2 ^ 63 -> length xs = (count * w)%nat -> length ys = (count * w)%nat ->
    holds m a xs -> holds m b ys ->
    exists r, memory_rel w rel m a b (Z.of_nat count) = Some r /\
      (r = true <-> forall i, (i < count * w)%nat -> forall x y, nth_error xs i = Some x -> nth_error ys i = Some y -> rel x y = true).
Proof. exact MemoryMain.C31_comparison_partial_main. Qed.
Print Assumptions C31_comparison_partial.

Example C31_comparison_partial_ex :
  let m : memory Z := fun a => if (0 <=? a) && (a <? 8) then Some (a mod 4) else None in
  memory_rel 2 Z.eqb m 0 4 2 = Some true /\ memory_rel 2 Z.ltb m 0 4 2 = Some false.
Proof.
  vm_compute. auto.
Qed.

(** Finding: two objects with equal entries can compare unequal, because the padding is compared: a = {1, 2, 3} and
b = {0, 1, 2}, b += 1 (vectors of 4 ints). *)
Theorem C31_equality_refuted :
  let m0 : memory Z := fun a => if (0 <=? a) && (a <? 8) then Some 77 else None in
  exists m1 m2 m3, ctor_list 0 4 m0 0 3 [1; 2; 3] = Some m1 /\ ctor_list 0 4 m1 4 3 [0; 1; 2] = Some m2 /\
    op_assign_scalar 4 Z.add m2 4 (vectors_count 4 3) 1 = Some m3 /\
    map m3 [0; 1; 2] = map m3 [4; 5; 6] /\ memory_rel 4 Z.eqb m3 0 4 (vectors_count 4 3) = Some false.
Proof. exact MemoryMain.C31_equality_refuted_main. Qed.
Print Assumptions C31_equality_refuted.

Example C31_equality_refuted_ex :
  vectors_count 4 3 = 1.
Proof.
  reflexivity.
Qed.

(** Finding: a != b is not the negation of a == b: it holds iff no cell of a equals its counterpart, so both are false for
objects that differ in some entries only. *)
Theorem C31_not_equal_refuted :
  (forall (A : Type) w count (eq : A -> A -> bool) (m : memory A) a b xs ys,
    Z.of_nat (count * w) < 2 ^ 63 -> length xs = (count * w)%nat -> length ys = (count * w)%nat -> holds m a xs -> holds m b ys ->
    memory_ne w eq m a b (Z.of_nat count) = Some (forallb negb (map2 eq xs ys))) /\
  (let m : memory Z := fun a => znth None (map Some [1; 2; 1; 3]) a in
   memory_rel 2 Z.eqb m 0 2 1 = Some false /\ memory_ne 2 Z.eqb m 0 2 1 = Some false).
Proof. exact MemoryMain.C31_not_equal_refuted_main. Qed.
Print Assumptions C31_not_equal_refuted.

Example C31_not_equal_refuted_ex :
  holds (fun a => znth None (map Some [1; 2; 1; 3]) a) 0 [1; 2].
Proof.
  intros i Hi. cbn [length] in Hi. do 2 (destruct i as [|i]; [reflexivity|]). lia.
Qed.

(** C32: whenever malloc<T, A>(n) returns a pointer, it is aligned to A and the system block behind it has at least
n * sizeof(T) bytes and a size that is a multiple of the alignment; the system allocator is only ever called with a
valid alignment.  It is assumed that n * sizeof(T) plus the alignment does not exceed 2^64.
([owned p s] stands for "the system has given out the block of s bytes at p".) *)
Theorem C32_malloc :
  forall (posix_memalign : Z -> Z -> option Z) (owned : Z -> Z -> Prop) va j sizeof_t a n p,
    (forall k s q, 8 <= 2 ^ k -> 0 <= s < 2 ^ 64 -> posix_memalign (2 ^ k) s = Some q -> q mod 2 ^ k = 0 /\ owned q s) ->
    va = 2 ^ j -> 0 <= j <= 60 -> 0 <= n -> 1 <= sizeof_t -> n * sizeof_t + alignment_of va a <= 2 ^ 64 ->
    malloc posix_memalign va sizeof_t a n = Some p ->
    p mod alignment_of va a = 0 /\
    exists s, owned p s /\ n * sizeof_t <= s < n * sizeof_t + alignment_of va a /\ s mod alignment_of va a = 0.
Proof. exact MemoryMain.C32_malloc_main. Qed.
Print Assumptions C32_malloc.

Example C32_malloc_ex :
  let posix_memalign al s := if s <? 1000 then Some (64 * al) else None in
  malloc posix_memalign 16 4 AlignOnVector 11 = Some 1024 /\ next_multiple_of 16 44 = 48.
Proof.
  vm_compute. auto.
Qed.

(** Finding: without that assumption the claim is false: if n * sizeof(T) exceeds 2^64, or lies less than one alignment
below it, the block requested from the system is smaller than n * sizeof(T) (no error is reported): 2^61 doubles
get a block of 0 bytes. *)
Theorem C32_malloc_refuted :
  forall (posix_memalign : Z -> Z -> option Z) va sizeof_t a n j, va = 2 ^ j -> 0 <= j <= 60 -> 0 <= n -> 1 <= sizeof_t ->
    2 ^ 64 - alignment_of va a < n * sizeof_t -> (n * sizeof_t) mod alignment_of va a <> 0 \/ 2 ^ 64 <= n * sizeof_t ->
    exists al s, malloc posix_memalign va sizeof_t a n = posix_memalign al s /\ 0 <= s < n * sizeof_t.
Proof. exact MemoryMain.C32_malloc_refuted_main. Qed.
Print Assumptions C32_malloc_refuted.

Example C32_malloc_refuted_ex :
  malloc (fun al s => Some s) 16 8 AlignOnVector (2 ^ 61) = Some 0.
Proof.
  vm_compute. reflexivity.
Qed.

(** C29: the default constructor of Memory<V, Rows, Columns> with InitPadding stays inside the object, makes the padding
entries of every row zero, and changes nothing but the last vector of every row. *)
Theorem C29_constructor_2d :
  forall (A : Type) (zero : A) k w rows columns (m : memory A) base,
    w = (2 ^ k)%nat -> Z.of_nat w < 2 ^ 62 -> 1 <= columns < 2 ^ 62 ->
    (forall a, base <= a < base + Z.of_nat rows * padded_size w columns -> m a <> None) ->
    ctor_rows zero w false rows 0 m base columns = Some m /\
    exists m', ctor_rows zero w true rows 0 m base columns = Some m' /\
      (forall x y, 0 <= x < Z.of_nat rows -> columns <= y < padded_size w columns -> m' (row_base w base columns x + y) = Some zero) /\
      (forall a, (forall x, 0 <= x < Z.of_nat rows ->
           ~ row_base w base columns x + padded_size w columns - Z.of_nat w <= a < row_base w base columns x + padded_size w columns) ->
         m' a = m a).
Proof. exact MemoryMain.C29_constructor_2d_main. Qed.
Print Assumptions C29_constructor_2d.

Example C29_constructor_2d_ex :
  option_map (fun m : memory Z => map m [0; 3; 4; 5; 7; 8; 12; 13; 15]) (ctor_rows 0 4 true 2 0 (fun a => if (0 <=? a) && (a <? 16) then Some 9 else None) 0 5) =
    Some [Some 9; Some 9; Some 0; Some 0; Some 0; Some 9; Some 0; Some 0; Some 0].
Proof.
  vm_compute. reflexivity.
Qed.
