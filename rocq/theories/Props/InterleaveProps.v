(** access to arrays of structs (InterleavedMemoryWrapper) and deinterleave *)
From Coq Require Import ZArith List Bool Lia Permutation.
From Verif.Spec Require Import Seq MemSpec InterleaveSpec.
From Verif.Model Require Import SplitSize SimdArray Mem Word SseReg SseMove SseInt SseBuild Interleave CheckIndexes Deinterleave.
Import ListNotations.
Local Open Scope Z_scope.
From Verif.Proof Require InterleaveMain.

(** C27: writing 2 .. 8 vectors with 1, 2, 4 or 8 entries (SSE: double; float, int, unsigned int; short, unsigned
short; scalar: any type): entry e of vector c is written to data + i(e) + c, and nothing else is modified; for every
build variant (32 or 64 bit, scatter with maskmovdqu or not), with any offsets i as well as with consecutive structs
of the given size. *)
Theorem C27_interleave :
  forall (A : Type) (zero : A) va n kind data (i : Z -> Z) vs (m : memory A),
    In n [1; 2; 4; 8]%nat -> (2 <= length vs <= 8)%nat -> (forall v, In v vs -> length v = n) ->
    (forall s, kind = Successive s -> forall e, 0 <= e < Z.of_nat n -> i e = i 0 + e * Z.of_nat s) ->
    disjoint_structs n (length vs) i -> members_mapped n (length vs) data i m ->
    exists m', interleave_impl zero va n kind data i vs m = Some m' /\ structs_written n data i vs m m'.
Proof. exact InterleaveMain.C27_interleave_main. Qed.
Print Assumptions C27_interleave.

Example C27_interleave_ex :
  let m := mem_of_list 100 (repeat 0 12) in
  option_map (fun m' => tab 12 (fun j => m' (100 + j))) (interleave_impl 0 {| x86_64 := true; maskmov_scatter := false |} 4 AnyIndex 100 (fun e => 9 - 3 * e)
    [[1; 2; 3; 4]; [5; 6; 7; 8]; [9; 10; 11; 12]] m) = Some (map Some [4; 8; 12; 3; 7; 11; 2; 6; 10; 1; 5; 9]).
Proof.
  vm_compute. reflexivity.
Qed.

(** C27: reading 2 .. 8 vectors: entry e of vector c is the value at data + i(e) + c, if the members listed by
members_read are allocated (see C27_deinterleave_refuted). *)
Theorem C27_deinterleave :
  forall (A : Type) (zero : A) n k data (i : Z -> Z) (m : memory A),
    In n [1; 2; 4; 8]%nat -> (2 <= k <= 8)%nat -> members_mapped n (members_read n k) data i m ->
    exists vs, deinterleave_impl zero n k data i m = Some vs /\ structs_read n k data i m vs.
Proof. exact InterleaveMain.C27_deinterleave_main. Qed.
Print Assumptions C27_deinterleave.

Example C27_deinterleave_ex :
  let m := mem_of_list 100 (tab 32 (fun j => j)) in
  deinterleave_impl 0 4 3 100 (fun e => 28 - 7 * e) m = Some [[28; 21; 14; 7]; [29; 22; 15; 8]; [30; 23; 16; 9]].
Proof.
  vm_compute. reflexivity.
Qed.

(** Finding: reading 3 vectors with 4 or 8 entries, 5, 6 or 7 vectors with 8 entries or 7 vectors with 4 entries reads
memory behind the requested members: if only the first k members of every struct are allocated (e.g. an array of
structs with 3 floats), the read of the last struct runs past the end of the array. *)
Theorem C27_deinterleave_refuted :
  forall n k, In (n, k) [(4, 3); (8, 3); (8, 5); (8, 6); (8, 7); (4, 7)]%nat ->
  exists (m : memory Z) (data : Z) (i : Z -> Z),
    members_mapped n k data i m /\ disjoint_structs n k i /\ deinterleave_impl 0 n k data i m = None.
Proof. exact InterleaveMain.C27_deinterleave_refuted_main. Qed.
Print Assumptions C27_deinterleave_refuted.

Example C27_deinterleave_refuted_ex :
  deinterleave_impl 0 4 3 0 (fun e => e * 3) (mem_of_list 0 (repeat 0 12)) = None.
Proof.
  vm_compute. reflexivity.
Qed.

(** C26: wrapper\[s\] = tie(v0, v1, ...) writes entry e of vector c to member c of struct idx\[e\] (or first + e) and nothing
else; every struct size below 2^31, 2 .. 8 vectors, every index vector without duplicates whose offsets idx\[e\] *
StructSize are representable as int (for successive structs: as size_t). *)
Theorem C26_write :
  forall (A : Type) (zero : A) va n struct_size data s vs (m : memory A),
    In n [1; 2; 4; 8]%nat -> (2 <= length vs <= 8)%nat -> (length vs <= struct_size)%nat -> Z.of_nat struct_size < 2 ^ 31 ->
    (forall v, In v vs -> length v = n) -> offsets_representable n struct_size s -> different_structs s ->
    members_mapped n (length vs) data (struct_offset struct_size s) m ->
    exists m', wrapper_write zero va n struct_size data s vs m = Some m' /\
      structs_written n data (struct_offset struct_size s) vs m m'.
Proof. exact InterleaveMain.C26_write_main. Qed.
Print Assumptions C26_write.

Example C26_write_ex :
  option_map (fun m' => tab 12 (fun j => m' (100 + j))) (wrapper_write 0 {| x86_64 := true; maskmov_scatter := true |} 4 3 100 (Indexes [3; 0; 2; 1])
    [[1; 2; 3; 4]; [5; 6; 7; 8]] (mem_of_list 100 (repeat 0 12))) = Some (map Some [2; 6; 0; 4; 8; 0; 3; 7; 0; 1; 5; 0]).
Proof.
  vm_compute. reflexivity.
Qed.

(** C26: tie(v0, v1, ...) = wrapper\[s\] reads member c of struct idx\[e\] (or first + e) into entry e of vector c; duplicate
indexes are allowed. *)
Theorem C26_read :
  forall (A : Type) (zero : A) n struct_size k data s (m : memory A),
    In n [1; 2; 4; 8]%nat -> (2 <= k <= 8)%nat -> (0 < struct_size)%nat -> Z.of_nat struct_size < 2 ^ 31 ->
    offsets_representable n struct_size s ->
    members_mapped n (members_read n k) data (struct_offset struct_size s) m ->
    exists vs, wrapper_read zero n struct_size k data s m = Some vs /\ structs_read n k data (struct_offset struct_size s) m vs.
Proof. exact InterleaveMain.C26_read_main. Qed.
Print Assumptions C26_read.

Example C26_read_ex :
  wrapper_read 0 4 3 2 100 (Indexes [3; 0; 3; 1]) (mem_of_list 100 (tab 12 (fun j => j))) = Some [[9; 0; 9; 3]; [10; 1; 10; 4]].
Proof.
  vm_compute. reflexivity.
Qed.

(** C26: reading back at the same subscript what has been written returns the same vectors. *)
Theorem C26_round_trip :
  forall (A : Type) (zero : A) va n struct_size data s vs (m m' : memory A),
    In n [1; 2; 4; 8]%nat -> (2 <= length vs <= 8)%nat -> Z.of_nat struct_size < 2 ^ 31 ->
    (forall v, In v vs -> length v = n) -> offsets_representable n struct_size s -> different_structs s ->
    members_mapped n (members_read n (length vs)) data (struct_offset struct_size s) m ->
    wrapper_write zero va n struct_size data s vs m = Some m' ->
    wrapper_read zero n struct_size (length vs) data s m' = Some vs.
Proof. exact InterleaveMain.C26_round_trip_main. Qed.
Print Assumptions C26_round_trip.

Example C26_round_trip_ex :
  forall m', wrapper_write 0 {| x86_64 := true; maskmov_scatter := true |} 4 4 100 (First 1) [[1; 2; 3; 4]; [5; 6; 7; 8]; [9; 10; 11; 12]] (mem_of_list 100 (repeat 0 20)) = Some m' ->
    wrapper_read 0 4 4 3 100 (First 1) m' = Some [[1; 2; 3; 4]; [5; 6; 7; 8]; [9; 10; 11; 12]].
Proof.
  intros m' H. apply (f_equal (fun o => match o with Some f => wrapper_read 0 4 4 3 100 (First 1) f | None => None end)) in H. exact (eq_sym H).
Qed.

(** Finding: if idx\[e\] * StructSize is not representable as int the wrong struct is accessed, although the array itself
may be that large: index 2^28 with a struct of 8 entries addresses entry -2^31 instead of entry 2^31. *)
Theorem C26_write_refuted :
  subscript_at 8 (Indexes [2 ^ 28]) 0 = - 2 ^ 31 /\ struct_offset 8 (Indexes [2 ^ 28]) 0 = 2 ^ 31 /\
  forall x, (2 ^ 31 <= x * 8 -> x < 2 ^ 31 -> subscript_at 8 (Indexes [x]) 0 <> struct_offset 8 (Indexes [x]) 0).
Proof. exact InterleaveMain.C26_write_refuted_main. Qed.
Print Assumptions C26_write_refuted.

Example C26_write_refuted_ex :
  wrapper_read 0 1 8 2 0 (Indexes [2 ^ 28]) (fun a => if a <? 0 then None else Some a) = None.
Proof.
  vm_compute. reflexivity.
Qed.

(** C26: the assertion of debug builds before a write holds exactly for index vectors without duplicates. *)
Theorem C26_unique_assertion :
  forall ssse3 n (t : sa (elt Int)), wf (sse_native 4) n t ->
    check_indexes_unique ssse3 t = Some true /\ NoDup (to_list t) \/ check_indexes_unique ssse3 t = Some false /\ ~ NoDup (to_list t).
Proof. exact InterleaveMain.C26_unique_assertion_main. Qed.
Print Assumptions C26_unique_assertion.

Example C26_unique_assertion_ex :
  check_indexes_unique false (generate (sse_native 4) 4 (fun i => mkw 4 (7 - 3 * i))) = Some true /\
  check_indexes_unique false (generate (sse_native 4) 4 (fun i => mkw 4 (i mod 3))) = Some false.
Proof.
  vm_compute. auto.
Qed.

(** C45: deinterleave(&a, &b, mem) without conversion, vectors with n = 2 (double), 4 (float, int, unsigned int) or 8
(short, unsigned short) entries: a holds the entries mem\[0\], mem\[2\], ..., b the entries mem\[1\], mem\[3\], .... *)
Theorem C45_deinterleave :
  forall (A : Type) (d : A) n (m : memory A) mem xs, In n [2; 4; 8]%nat -> length xs = (2 * n)%nat -> holds m mem xs ->
    deinterleave_mem n m mem = Some (tab n (fun i => znth d xs (2 * i)), tab n (fun i => znth d xs (2 * i + 1))).
Proof. exact InterleaveMain.C45_deinterleave_main. Qed.
Print Assumptions C45_deinterleave.

Example C45_deinterleave_ex :
  deinterleave_mem 8 (mem_of_list 7 (tab 16 (fun i => i))) 7 = Some ([0; 2; 4; 6; 8; 10; 12; 14], [1; 3; 5; 7; 9; 11; 13; 15]).
Proof.
  vm_compute. reflexivity.
Qed.

(** C45: int vectors from shorts and unsigned int vectors from unsigned shorts: entry i of a has the value of mem\[2 i\],
entry i of b the value of mem\[2 i + 1\]. *)
Theorem C45_deinterleave_int :
  forall (m : memory (word 2)) mem xs, length xs = 8%nat -> holds m mem xs ->
    (exists a b, deinterleave_mem_short_int m mem = Some (a, b) /\
       map sval (lanes 4 a) = tab 4 (fun i => sval (znth (w0 2) xs (2 * i))) /\
       map sval (lanes 4 b) = tab 4 (fun i => sval (znth (w0 2) xs (2 * i + 1)))) /\
    (exists a b, deinterleave_mem_ushort_uint m mem = Some (a, b) /\
       map uval (lanes 4 a) = tab 4 (fun i => uval (znth (w0 2) xs (2 * i))) /\
       map uval (lanes 4 b) = tab 4 (fun i => uval (znth (w0 2) xs (2 * i + 1)))).
Proof. exact InterleaveMain.C45_deinterleave_int_main. Qed.
Print Assumptions C45_deinterleave_int.

Example C45_deinterleave_int_ex :
  option_map (fun p => (map sval (lanes 4 (fst p)), map sval (lanes 4 (snd p)))) (deinterleave_mem_short_int (mem_of_list 3 (tab 8 (fun i => mkw 2 (- 1000 * i)))) 3)
  = Some ([0; -2000; -4000; -6000], [-1000; -3000; -5000; -7000]).
Proof.
  vm_compute. reflexivity.
Qed.
