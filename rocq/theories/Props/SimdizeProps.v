(** simdize: simdized structs, iterators and the type transformation *)
From Coq Require Import ZArith List Bool Lia.
From Verif.Spec Require Import Seq NativeSpec MaskSpec InterleaveSpec SimdizeSpec.
From Verif.Model Require Import SplitSize Mem SimdArray SimdArrayOps ScalarVec SseBuild Interleave Simdize.
Import ListNotations.
Local Open Scope Z_scope.
From Verif.Proof Require SimdizeMain.

(** C41: extract(a, i) and a\[i\] return the scalar struct of the i-th entries; an index outside is undefined. *)
Theorem C41_extract :
  forall (A : Type) (zero : A) n k a i, adapter_ok n k a ->
    (0 <= i < Z.of_nat n -> adapter_extract zero a i = Some (object zero a i)) /\
    (~ 0 <= i < Z.of_nat n -> (1 <= k)%nat -> adapter_extract zero a i = None).
Proof. exact SimdizeMain.C41_extract_main. Qed.
Print Assumptions C41_extract.

Example C41_extract_ex :
  adapter_ok 3 2 example_members /\ adapter_extract 0 example_members 1 = Some [1; 11].
Proof.
  split; [exact SimdizeMain.example_members_ok|reflexivity].
Qed.

(** C41: assign(a, i, x) (and a\[i\] = x) changes the scalar struct i to x and no other; the number of entries stays. *)
Theorem C41_assign :
  forall (A : Type) (zero : A) n k a i x, adapter_ok n k a -> length x = k -> 0 <= i < Z.of_nat n ->
    exists a', adapter_assign a i x = Some a' /\ adapter_ok n k a' /\
      forall j, 0 <= j < Z.of_nat n -> adapter_extract zero a' j = Some (if j =? i then x else object zero a j).
Proof. exact SimdizeMain.C41_assign_main. Qed.
Print Assumptions C41_assign.

Example C41_assign_ex :
  option_map (map to_list) (adapter_assign example_members 2 [7; 8]) = Some [[0; 1; 7]; [10; 11; 8]].
Proof.
  reflexivity.
Qed.

(** C41: swap(a, i, x) exchanges struct i of a with the scalar x; swap(a, i, b, j) exchanges struct i of a with struct j of
b; no other struct changes. *)
Theorem C41_swap :
  forall (A : Type) (zero : A) n k a i, adapter_ok n k a -> 0 <= i < Z.of_nat n ->
    (forall x, length x = k -> exists a', swap_scalar zero a i x = Some (a', object zero a i) /\ adapter_ok n k a' /\
       forall z, object zero a' z = if z =? i then x else object zero a z) /\
    (forall b j, adapter_ok n k b -> 0 <= j < Z.of_nat n ->
       exists a' b', swap_lanes zero a i b j = Some (a', b') /\ adapter_ok n k a' /\ adapter_ok n k b' /\
         (forall z, object zero a' z = if z =? i then object zero b j else object zero a z) /\
         (forall z, object zero b' z = if z =? j then object zero a i else object zero b z)).
Proof. exact SimdizeMain.C41_swap_main. Qed.
Print Assumptions C41_swap.

Example C41_swap_ex :
  option_map (fun p => (map to_list (fst p), snd p)) (swap_scalar 0 example_members 0 [5; 6]) = Some ([[5; 1; 2]; [6; 11; 12]], [0; 10]) /\
  option_map (fun p => (map to_list (fst p), map to_list (snd p))) (swap_lanes 0 example_members 0 (adapter_broadcast scalar_native 3 [7; 8]) 2)
    = Some ([[7; 1; 2]; [8; 11; 12]], [[7; 7; 0]; [8; 8; 10]]).
Proof.
  split; reflexivity.
Qed.

(** C41: swap(a\[i\], a\[j\]) within one object exchanges exactly the structs i and j, also for i = j. *)
Theorem C41_swap_same :
  forall (A : Type) (zero : A) n k a i j, adapter_ok n k a -> 0 <= i < Z.of_nat n -> 0 <= j < Z.of_nat n ->
    exists a', swap_same zero a i j = Some a' /\ adapter_ok n k a' /\
      forall z, object zero a' z = if z =? i then object zero a j else if z =? j then object zero a i else object zero a z.
Proof. exact SimdizeMain.C41_swap_same_main. Qed.
Print Assumptions C41_swap_same.

Example C41_swap_same_ex :
  option_map (map to_list) (swap_same 0 example_members 0 2) = Some [[2; 1; 0]; [12; 11; 10]].
Proof.
  reflexivity.
Qed.

(** C41: construction from a scalar struct x: every struct is x. *)
Theorem C41_broadcast :
  forall (A : Type) (zero : A) native n x, widths_ok native -> (1 <= n)%nat ->
    adapter_ok n (length x) (adapter_broadcast native n x) /\
    forall i, 0 <= i < Z.of_nat n -> object zero (adapter_broadcast native n x) i = x.
Proof. exact SimdizeMain.C41_broadcast_main. Qed.
Print Assumptions C41_broadcast.

Example C41_broadcast_ex :
  map to_list (adapter_broadcast (fun n => Nat.eqb n 1 || Nat.eqb n 4) 5 [1; 2]) = [[1; 1; 1; 1; 1]; [2; 2; 2; 2; 2]].
Proof.
  reflexivity.
Qed.

(** C41: construction from a function (which may have state): it is called with 0, 1, ..., Size - 1 in this order and struct i
is the result of call i, whatever the uninitialised object contained. *)
Theorem C41_generator :
  forall (A S : Type) (zero : A) (f : S -> Z -> S * list A) n k s a, (forall s i, length (snd (f s i)) = k) -> adapter_ok n k a ->
    exists a', from_function f n s a = Some (fst (calls f n 0 s), a') /\ adapter_ok n k a' /\
      length (snd (calls f n 0 s)) = n /\ forall i, 0 <= i < Z.of_nat n -> object zero a' i = znth [] (snd (calls f n 0 s)) i.
Proof. exact SimdizeMain.C41_generator_main. Qed.
Print Assumptions C41_generator.

Example C41_generator_ex :
  option_map (fun p => (fst p, map to_list (snd p))) (from_function (fun s i => (s + i, [s; 100 + i])) 3 50 example_members) = Some (53, [[50; 50; 51]; [100; 101; 102]]).
Proof.
  reflexivity.
Qed.

(** C41: shifted(a, amount) shifts the structs: struct i of the result is struct i + amount of a, and zeros outside (member
vectors with 2^j entries of types whose native operations are correct; other sizes: see C05). *)
Theorem C41_shifted_power_of_two :
  forall (A : Type) native (ops : native_ops A) (zero : A) j a amount,
    widths_ok native -> native_moves_ok native zero ops -> Forall (wf native (Nat.pow 2 j)) a ->
    exists a', adapter_shifted zero native ops a amount = Some a' /\ adapter_ok (Nat.pow 2 j) (length a) a' /\
      forall i, 0 <= i < Z.of_nat (Nat.pow 2 j) -> object zero a' i = object zero a (i + amount).
Proof. exact SimdizeMain.C41_shifted_power_of_two_main. Qed.
Print Assumptions C41_shifted_power_of_two.

Example C41_shifted_power_of_two_ex :
  option_map (map to_list) (adapter_shifted 0 scalar_native (scalar_ops 0) [generate scalar_native 4 (fun i => 1 + i); generate scalar_native 4 (fun i => 11 + i)] (-1))
    = Some [[0; 1; 2; 3]; [0; 11; 12; 13]].
Proof.
  reflexivity.
Qed.

(** C41: where(mask) | a op= b changes the structs with a set mask entry to the member-wise a op b and no others. *)
Theorem C41_where :
  forall (A : Type) (zero : A) native nassign (f : A -> A -> A) n a b (mask : sa bool),
    widths_ok native -> native_assign_ok native nassign -> (1 <= n)%nat -> length a = length b ->
    Forall (wf native n) a -> Forall (wf native n) b -> length (to_list mask) = n ->
    exists r, adapter_conditional_assign nassign native n f a mask b = Some r /\ Forall (wf native n) r /\ length r = length a /\
      forall i, 0 <= i < Z.of_nat n ->
        object zero r i = if znth false (to_list mask) i then map2 f (object zero a i) (object zero b i) else object zero a i.
Proof. exact SimdizeMain.C41_where_main. Qed.
Print Assumptions C41_where.

Example C41_where_ex :
  option_map (map to_list) (adapter_conditional_assign scalar_assign scalar_native 3 Z.add example_members (generate scalar_native 3 Z.even) example_members)
    = Some [[0; 1; 4]; [20; 11; 24]].
Proof.
  reflexivity.
Qed.

(** C41: load_interleaved and store_interleaved for structs whose members have different sizes: the n structs from mem, and
nothing else is written. *)
Theorem C41_load_store :
  forall (A : Type) (zero : A) n k a mem (m : memory (list A)), adapter_ok n k a -> structs_at k n mem m ->
    (exists a', load_loop n 0 m mem a = Some a' /\ adapter_ok n k a' /\ forall i, 0 <= i < Z.of_nat n -> m (mem + i) = Some (object zero a' i)) /\
    (exists m', store_loop zero n 0 a mem m = Some m' /\ objects_written zero n a mem m m').
Proof. exact SimdizeMain.C41_load_store_main. Qed.
Print Assumptions C41_load_store.

Example C41_load_store_ex :
  option_map (map to_list) (load_loop 3 0 (mem_of_list 100 [[1; 2]; [3; 4]; [5; 6]]) 100 example_members) = Some [[1; 3; 5]; [2; 4; 6]] /\
  option_map (fun m' => tab 3 (fun i => m' (100 + i))) (store_loop 0 3 0 example_members 100 (mem_of_list 100 [[1; 2]; [3; 4]; [5; 6]])) = Some (map Some [[0; 10]; [1; 11]; [2; 12]]).
Proof.
  split; reflexivity.
Qed.

(** C41: load_interleaved for structs whose k members all have the same size, struct_size cells per struct, vectors with 1,
2, 4 or 8 entries: member c of struct e is cell c of the e-th struct in memory.  The code assumes that the members of
the struct lie in memory in the order in which get<> enumerates them. *)
Theorem C41_load_homogeneous :
  forall (A : Type) (zero : A) n struct_size k mem (m : memory A),
    In n [1; 2; 4; 8]%nat -> (2 <= k <= 8)%nat -> (0 < struct_size)%nat -> Z.of_nat struct_size < 2 ^ 31 ->
    members_mapped n (members_read n k) mem (fun e => e * Z.of_nat struct_size) m ->
    exists a, load_homogeneous zero n struct_size k m mem = Some a /\ adapter_ok n k a /\
      forall e c, 0 <= e < Z.of_nat n -> (c < k)%nat -> m (mem + e * Z.of_nat struct_size + Z.of_nat c) = nth_error (object zero a e) c.
Proof. exact SimdizeMain.C41_load_homogeneous_main. Qed.
Print Assumptions C41_load_homogeneous.

Example C41_load_homogeneous_ex :
  option_map (map to_list) (load_homogeneous 0 4 3 2 (mem_of_list 100 (tab 12 (fun i => i))) 100) = Some [[0; 3; 6; 9]; [1; 4; 7; 10]].
Proof.
  reflexivity.
Qed.

(** C41: store_interleaved for structs whose members all have the same size writes member c of struct e to cell c of the e-th
struct and nothing else. *)
Theorem C41_store_homogeneous :
  forall (A : Type) (zero : A) va n struct_size k a mem (m : memory A),
    In n [1; 2; 4; 8]%nat -> (2 <= k <= 8)%nat -> (k <= struct_size)%nat -> Z.of_nat struct_size < 2 ^ 31 ->
    adapter_ok n k a -> members_mapped n k mem (fun e => e * Z.of_nat struct_size) m ->
    exists m', store_homogeneous zero va n struct_size a mem m = Some m' /\
      (forall e c, 0 <= e < Z.of_nat n -> (c < k)%nat -> m' (mem + e * Z.of_nat struct_size + Z.of_nat c) = nth_error (object zero a e) c) /\
      (forall q, (forall e c, 0 <= e < Z.of_nat n -> (c < k)%nat -> q <> mem + e * Z.of_nat struct_size + Z.of_nat c) -> m' q = m q).
Proof. exact SimdizeMain.C41_store_homogeneous_main. Qed.
Print Assumptions C41_store_homogeneous.

Example C41_store_homogeneous_ex :
  option_map (fun m' => tab 8 (fun i => m' (100 + i)))
    (store_homogeneous 0 {| x86_64 := true; maskmov_scatter := false |} 2 4 [Leaf [1; 2]; Leaf [3; 4]; Leaf [5; 6]] 100 (mem_of_list 100 (repeat 0 8))) = Some (map Some [1; 3; 5; 0; 2; 4; 6; 0]).
Proof.
  reflexivity.
Qed.

(** C41: without the assumption on the order of the members load_interleaved is wrong: if member c lies at cell (layout c)
with layout c <> c (std::tuple of libstdc++ stores its members in reverse order), then there is a memory such that
member c of the first struct is not the value loaded. *)
Theorem C41_load_homogeneous_layout_refuted :
  forall n struct_size k mem (layout : nat -> nat) c,
    In n [1; 2; 4; 8]%nat -> (2 <= k <= 8)%nat -> (0 < struct_size)%nat -> Z.of_nat struct_size < 2 ^ 31 ->
    (c < k)%nat -> layout c <> c ->
    exists (m : memory Z) a, load_homogeneous 0 n struct_size k m mem = Some a /\
      nth_error (object 0 a 0) c <> m (mem + Z.of_nat (layout c)).
Proof. exact SimdizeMain.C41_load_homogeneous_layout_refuted_main. Qed.
Print Assumptions C41_load_homogeneous_layout_refuted.

Example C41_load_homogeneous_layout_refuted_ex :
  let tuple_at i := match i with 0%nat => 1%nat | _ => 0%nat end in
  tuple_at 0%nat <> 0%nat /\ option_map (fun a => object 0 a 0) (load_homogeneous 0 4 2 2 (mem_of_list 100 (tab 8 (fun i => i))) 100) = Some [0; 1].
Proof.
  split; [discriminate|reflexivity].
Qed.

(** C42: *it for an iterator over structs, and over arithmetic values: entry j is the element at position it + j. *)
Theorem C42_dereference :
  forall (A : Type) (zero : A) native n k p, widths_ok native -> (1 <= n)%nat ->
    (forall m, structs_at k n p m ->
       exists a, from_iterator zero native n k m p = Some a /\ adapter_ok n k a /\ forall j, 0 <= j < Z.of_nat n -> m (p + j) = Some (object zero a j)) /\
    (forall m : memory A, (forall j, 0 <= j < Z.of_nat n -> m (p + j) <> None) ->
       exists v, from_iterator_vector zero native n m p = Some v /\ wf native n v /\ forall j, 0 <= j < Z.of_nat n -> m (p + j) = Some (znth zero (to_list v) j)).
Proof. exact SimdizeMain.C42_dereference_main. Qed.
Print Assumptions C42_dereference.

Example C42_dereference_ex :
  option_map (map to_list) (from_iterator 0 scalar_native 3 2 (mem_of_list 100 [[1; 2]; [3; 4]; [5; 6]; [7; 8]]) 101) = Some [[3; 5; 7]; [4; 6; 8]].
Proof.
  reflexivity.
Qed.

(** C42: *it = x and *(it + i) = x write the entries of x to the Size elements from the position of the iterator and nothing
else; it-> followed by any modification f of the object writes back the modified object. *)
Theorem C42_write :
  forall (A : Type) (zero : A) native n k (st : iterators) m it p, widths_ok native -> (1 <= n)%nat -> st it = Some p ->
    (forall x, adapter_ok n k x -> structs_at k n p m ->
       exists r m', deref zero native n k st m it = Some r /\ ref_assign zero n st m r x = Some m' /\ objects_written zero n x p m m') /\
    (forall x i tmp, adapter_ok n k x -> structs_at k n (p + i * Z.of_nat n) m ->
       exists m', plus_assign zero native n k st m it i tmp x = Some m' /\ objects_written zero n x (p + i * Z.of_nat n) m m') /\
    (forall f, (forall d, adapter_ok n k d -> adapter_ok n k (f d)) -> structs_at k n p m ->
       exists d m', from_iterator zero native n k m p = Some d /\ arrow zero native n k f st m it = Some m' /\ objects_written zero n (f d) p m m').
Proof. exact SimdizeMain.C42_write_main. Qed.
Print Assumptions C42_write.

Example C42_write_ex :
  option_map (fun m' => tab 5 (fun i => m' (100 + i)))
    (plus_assign 0 scalar_native 2 1 (fun a => if a =? 7 then Some 100 else None) (mem_of_list 100 [[1]; [2]; [3]; [4]; [5]]) 7 1 8 [generate scalar_native 2 (fun i => 50 + i)])
    = Some (map Some [[1]; [2]; [50]; [51]; [5]]).
Proof.
  reflexivity.
Qed.

(** C42: using it-> without modifying the object leaves the container unchanged. *)
Theorem C42_arrow_reads :
  forall (A : Type) (zero : A) native n k (st : iterators) m it p, widths_ok native -> (1 <= n)%nat -> st it = Some p -> structs_at k n p m ->
    exists m', arrow zero native n k (fun d => d) st m it = Some m' /\ forall q, m' q = m q.
Proof. exact SimdizeMain.C42_arrow_reads_main. Qed.
Print Assumptions C42_arrow_reads.

Example C42_arrow_reads_ex :
  option_map (fun m' => tab 4 (fun i => m' (100 + i)))
    (arrow 0 scalar_native 3 2 (fun d => d) (fun a => if a =? 7 then Some 101 else None) (mem_of_list 100 [[1; 2]; [3; 4]; [5; 6]; [7; 8]]) 7) = Some (map Some [[1; 2]; [3; 4]; [5; 6]; [7; 8]]).
Proof.
  reflexivity.
Qed.

(** C42: it\[i\] = x, in contrast to *(it + i) = x, is undefined for every mutable simdized iterator: the reference refers to
the temporary iterator it + i, which is destroyed when operator\[\] returns. *)
Theorem C42_subscript_assign_refuted :
  forall (A : Type) (zero : A) native n k (st : iterators) m it i tmp x, st tmp = None ->
    subscript_assign zero native n k st m it i tmp x = None.
Proof. exact SimdizeMain.C42_subscript_assign_refuted_main. Qed.
Print Assumptions C42_subscript_assign_refuted.

Example C42_subscript_assign_refuted_ex :
  let m := mem_of_list 100 [[1]; [2]; [3]; [4]] in let st := fun a => if a =? 7 then Some 100 else None in let x := [generate scalar_native 2 (fun i => 50 + i)] in
  subscript_assign 0 scalar_native 2 1 st m 7 1 8 x = None /\ plus_assign 0 scalar_native 2 1 st m 7 1 8 x <> None.
Proof.
  split; [reflexivity|discriminate].
Qed.

(** C42: a reference obtained from *it follows the iterator: after ++it an assignment to the reference writes to the next
chunk instead of the elements the reference was obtained from. *)
Theorem C42_reference_moves_refuted :
  forall (A : Type) (zero : A) native n k (st : iterators) m it p x, widths_ok native -> (1 <= n)%nat -> st it = Some p ->
    adapter_ok n k x -> structs_at k n p m -> structs_at k n (p + Z.of_nat n) m ->
    exists r m', deref zero native n k st m it = Some r /\ ref_assign zero n (mem_set st it (it_increment n p)) m r x = Some m' /\
      objects_written zero n x (p + Z.of_nat n) m m'.
Proof. exact SimdizeMain.C42_reference_moves_refuted_main. Qed.
Print Assumptions C42_reference_moves_refuted.

Example C42_reference_moves_refuted_ex :
  let m := mem_of_list 100 [[1]; [2]; [3]; [4]] in let st := fun a => if a =? 7 then Some 100 else None in
  match deref 0 scalar_native 2 1 st m 7 with
  | Some r => option_map (fun m' => tab 4 (fun i => m' (100 + i))) (ref_assign 0 2 (mem_set st 7 102) m r [generate scalar_native 2 (fun i => 50 + i)])
  | None => None
  end = Some (map Some [[1]; [2]; [50]; [51]]).
Proof.
  reflexivity.
Qed.

(** C42: for iterators at whole numbers of steps from each other, ++, --, +=, -=, the distance and ==, !=, <, > agree with
the integers. *)
Theorem C42_arithmetic :
  forall n p i j, (1 <= n)%nat ->
    it_increment n (it_add n p i) = it_add n p (i + 1) /\ it_decrement n (it_add n p i) = it_add n p (i - 1) /\
    it_sub n (it_add n p i) j = it_add n p (i - j) /\
    it_distance n (it_add n p i) (it_add n p j) = i - j /\
    it_eq (it_add n p i) (it_add n p j) = (i =? j) /\ it_ne (it_add n p i) (it_add n p j) = negb (i =? j) /\
    it_lt n (it_add n p i) (it_add n p j) = (i <? j) /\ it_gt n (it_add n p i) (it_add n p j) = (j <? i).
Proof. exact SimdizeMain.C42_arithmetic_main. Qed.
Print Assumptions C42_arithmetic.

Example C42_arithmetic_ex :
  it_distance 4 (it_add 4 100 7) (it_add 4 100 9) = -2 /\ it_lt 4 100 103 = false /\ it_lt 4 100 104 = true.
Proof.
  split; [|split]; reflexivity.
Qed.

(** C42: it <= it and it >= it are false if the vectors have more than one entry, and for iterators at whole numbers of steps
<= is the same as <, and >= the same as >. *)
Theorem C42_less_equal_refuted :
  forall n p i j, (2 <= n)%nat ->
    it_le n p p = false /\ it_ge n p p = false /\
    it_le n (it_add n p i) (it_add n p j) = it_lt n (it_add n p i) (it_add n p j) /\
    it_ge n (it_add n p i) (it_add n p j) = it_gt n (it_add n p i) (it_add n p j).
Proof. exact SimdizeMain.C42_less_equal_refuted_main. Qed.
Print Assumptions C42_less_equal_refuted.

Example C42_less_equal_refuted_ex :
  it_le 4 100 100 = false /\ it_eq 100 100 = true.
Proof.
  split; reflexivity.
Qed.

(** C42: for (it = first; it != last; ++it) over a container of q * Size structs: q iterations; entry j of the object of
iteration c is the element c * Size + j. *)
Theorem C42_loop :
  forall (A : Type) (zero : A) native n k q m first, widths_ok native -> (1 <= n)%nat -> structs_at k (q * n) first m ->
    exists ds, iterate zero native n k it_ne q m first (first + Z.of_nat (q * n)) = Some ds /\ length ds = q /\
      forall c j, (c < q)%nat -> 0 <= j < Z.of_nat n ->
        adapter_ok n k (nth c ds []) /\ m (first + Z.of_nat c * Z.of_nat n + j) = Some (object zero (nth c ds []) j).
Proof. exact SimdizeMain.C42_loop_main. Qed.
Print Assumptions C42_loop.

Example C42_loop_ex :
  option_map (map (map to_list)) (iterate 0 scalar_native 2 1 it_ne 3 (mem_of_list 100 (map (fun x => [x]) [1; 2; 3; 4; 5; 6])) 100 106) = Some [[[1; 2]]; [[3; 4]]; [[5; 6]]].
Proof.
  reflexivity.
Qed.

(** C42: if the size of the container is not a multiple of Size, this loop accesses elements outside of the container,
whatever number of iterations is considered. *)
Theorem C42_loop_overrun_refuted :
  forall (A : Type) (zero : A) native n k m first last, (1 <= n)%nat -> (1 <= k)%nat ->
    (forall q, m q <> None <-> first <= q < last) -> first < last -> (last - first) mod Z.of_nat n <> 0 ->
    forall fuel, iterate zero native n k it_ne fuel m first last = None.
Proof. exact SimdizeMain.C42_loop_overrun_refuted_main. Qed.
Print Assumptions C42_loop_overrun_refuted.

Example C42_loop_overrun_refuted_ex :
  iterate 0 scalar_native 2 1 it_ne 1000 (mem_of_list 100 (map (fun x => [x]) [1; 2; 3; 4; 5])) 100 105 = None.
Proof.
  reflexivity.
Qed.

(** C42: the loop with it < last visits all complete chunks of a container of any size and no element of the rest. *)
Theorem C42_loop_less :
  forall (A : Type) (zero : A) native n k m first size, widths_ok native -> (1 <= n)%nat -> structs_at k size first m ->
    exists ds, iterate zero native n k (it_lt n) (size / n) m first (first + Z.of_nat size) = Some ds /\ length ds = (size / n)%nat /\
      forall c j, (c < size / n)%nat -> 0 <= j < Z.of_nat n ->
        adapter_ok n k (nth c ds []) /\ m (first + Z.of_nat c * Z.of_nat n + j) = Some (object zero (nth c ds []) j).
Proof. exact SimdizeMain.C42_loop_less_main. Qed.
Print Assumptions C42_loop_less.

Example C42_loop_less_ex :
  option_map (map (map to_list)) (iterate 0 scalar_native 2 1 (it_lt 2) 2 (mem_of_list 100 (map (fun x => [x]) [1; 2; 3; 4; 5])) 100 105) = Some [[[1; 2]]; [[3; 4]]].
Proof.
  reflexivity.
Qed.

(** C48: whenever simdize<T, N, MT> compiles, its scalar type is T (the structure is the same, only arithmetic types and
iterators are replaced), and all vectors, masks, simdized structs and iterators in it have the same number of entries,
which is N if N is not 0. *)
Theorem C48_widths :
  forall native_size t N mt v, (forall e, native_size e <> 0%nat) -> simdize native_size t N mt = Some v ->
    scalar_of v = t /\ exists n, has_width n v /\ (N <> 0%nat -> n = N).
Proof. exact SimdizeMain.C48_widths_main. Qed.
Print Assumptions C48_widths.

Example C48_widths_ex :
  let size e := match e with Short | UShort => 8 | Int | UInt | Float => 4 | Double => 2 end%nat in
  simdize size (TTemplate 0 [TOther 5; TArith Double; TBool; TTemplate 1 [TArith Short; TIterator (TArith Int)]]) 0 None
  = Some (VAdapter (TTemplate 0 [TOther 5; TArith Double; TBool; TTemplate 1 [TArith Short; TIterator (TArith Int)]]) 0
      [VPlain (TOther 5); VVector Double 2; VMask Double 2; VAdapter (TTemplate 1 [TArith Short; TIterator (TArith Int)]) 1 [VVector Short 2; VIterator (VVector Int 2) 2] 2] 2).
Proof.
  reflexivity.
Qed.

(** C48: simdize leaves exactly those types unchanged that contain no arithmetic type, bool or iterator. *)
Theorem C48_unchanged :
  forall native_size t N mt,
    (nothing_to_do t -> simdize native_size t N mt = Some (VPlain t)) /\
    (forall t', simdize native_size t N mt = Some (VPlain t') -> t' = t /\ nothing_to_do t).
Proof. exact SimdizeMain.C48_unchanged_main. Qed.
Print Assumptions C48_unchanged.

Example C48_unchanged_ex :
  nothing_to_do (TTemplate 0 [TOther 1; TTemplate 2 [TOther 3]]) /\ simdize (fun _ => 4%nat) (TTemplate 0 [TOther 1; TTemplate 2 [TOther 3]]) 0 None = Some (VPlain (TTemplate 0 [TOther 1; TTemplate 2 [TOther 3]])).
Proof.
  split; [cbn; auto|reflexivity].
Qed.

(** C48: with an explicit N, simdize compiles for all types made of bool, arithmetic types, untransformed types and class
templates. *)
Theorem C48_defined :
  forall native_size t N, N <> 0%nat -> no_iterator t -> exists v, simdize native_size t N None = Some v.
Proof. exact SimdizeMain.C48_defined_main. Qed.
Print Assumptions C48_defined.

Example C48_defined_ex :
  simdize (fun _ => 4%nat) (TTemplate 0 [TTemplate 1 [TArith Float; TArith Float]; TBool]) 6 None
  = Some (VAdapter (TTemplate 0 [TTemplate 1 [TArith Float; TArith Float]; TBool]) 0 [VAdapter (TTemplate 1 [TArith Float; TArith Float]) 1 [VVector Float 6; VVector Float 6] 6; VMask Float 6] 6).
Proof.
  reflexivity.
Qed.

(** C48: without an explicit N simdize does not compile if a bool follows a class template that is vectorised, for instance
simdize<std::tuple<std::pair<float, T>, bool>>: the class template becomes the type whose mask type is used. *)
Theorem C48_defined_refuted :
  forall native_size c d e args, (forall e, native_size e <> 0%nat) ->
    simdize native_size (TTemplate d (TArith e :: args)) 0 None <> None ->
    simdize native_size (TTemplate c [TTemplate d (TArith e :: args); TBool]) 0 None = None.
Proof. exact SimdizeMain.C48_defined_refuted_main. Qed.
Print Assumptions C48_defined_refuted.

Example C48_defined_refuted_ex :
  simdize (fun _ => 4%nat) (TTemplate 0 [TTemplate 1 [TArith Float; TArith Float]; TBool]) 0 None = None /\
  simdize (fun _ => 4%nat) (TTemplate 1 [TArith Float; TArith Float]) 0 None <> None /\
  simdize (fun _ => 4%nat) (TTemplate 0 [TBool; TTemplate 1 [TArith Float; TArith Float]]) 0 None <> None.
Proof.
  split; [reflexivity|]. split; discriminate.
Qed.
