(** access to arrays of structs and deinterleave with AVX vectors *)
From Coq Require Import ZArith List Bool Lia.
From Verif.Spec Require Import Seq MemSpec InterleaveSpec RoundSpec.
From Verif.Model Require Import SimdArray Mem Word SseReg Fp AvxReg AvxShuffle Interleave AvxInterleave.
Import ListNotations.
Local Open Scope Z_scope.
From Verif.Proof Require AvxInterleaveMain.

(** C27: writing 2 .. 8 AVX vectors with 4 (double), 8 (float, int, unsigned int) or 16 (short, unsigned short) entries:
entry e of vector c is written to data + i(e) + c, and nothing else is modified; with and without maskstore scatters,
with any offsets i as well as with consecutive structs of the given size. *)
Theorem C27_avx_interleave :
  forall (A : Type) (zero : A) va n kind data (i : Z -> Z) vs (m : memory A),
    In n [4; 8; 16]%nat -> (2 <= length vs <= 8)%nat -> (forall v, In v vs -> length v = n) ->
    (forall s, kind = Successive s -> forall e, 0 <= e < Z.of_nat n -> i e = i 0 + e * Z.of_nat s) ->
    disjoint_structs n (length vs) i -> members_mapped n (length vs) data i m ->
    exists m', avx_interleave_impl zero va n kind data i vs m = Some m' /\ structs_written n data i vs m m'.
Proof. exact AvxInterleaveMain.C27_avx_interleave_main. Qed.
Print Assumptions C27_avx_interleave.

Example C27_avx_interleave_ex :
  let m := mem_of_list 100 (repeat 0 24) in
  option_map (fun m' => tab 24 (fun j => m' (100 + j))) (avx_interleave_impl 0 {| x86_64 := true; maskmov_scatter := false |} 8 (Successive 3) 100 (fun e => 3 * e)
    [tab 8 (fun e => e); tab 8 (fun e => 10 + e); tab 8 (fun e => 20 + e)] m)
  = Some (map Some [0; 10; 20; 1; 11; 21; 2; 12; 22; 3; 13; 23; 4; 14; 24; 5; 15; 25; 6; 16; 26; 7; 17; 27]).
Proof.
  vm_compute. reflexivity.
Qed.

(** C27: reading 2 .. 8 AVX vectors: entry e of vector c is the value at data + i(e) + c, if the members listed by
avx_members_read are allocated (see C27_avx_deinterleave_refuted). *)
Theorem C27_avx_deinterleave :
  forall (A : Type) (zero : A) n k kind data (i : Z -> Z) (m : memory A),
    In n [4; 8; 16]%nat -> (2 <= k <= 8)%nat ->
    (forall s, kind = Successive s -> forall e, 0 <= e < Z.of_nat n -> i e = i 0 + e * Z.of_nat s) ->
    members_mapped n (avx_members_read n k kind) data i m ->
    exists vs, avx_deinterleave_impl zero n k kind data i m = Some vs /\ structs_read n k data i m vs.
Proof. exact AvxInterleaveMain.C27_avx_deinterleave_main. Qed.
Print Assumptions C27_avx_deinterleave.

Example C27_avx_deinterleave_ex :
  let m := mem_of_list 100 (tab 60 (fun j => j)) in
  avx_deinterleave_impl 0 8 3 AnyIndex 100 (fun e => 49 - 7 * e) m
  = Some [[49; 42; 35; 28; 21; 14; 7; 0]; [50; 43; 36; 29; 22; 15; 8; 1]; [51; 44; 37; 30; 23; 16; 9; 2]].
Proof.
  vm_compute. reflexivity.
Qed.

(** Finding: reading 3 vectors with 8 or 16 entries, 5, 6 or 7 vectors with 16 entries or 7 vectors with 8 entries at
arbitrary indexes reads memory behind the requested members: if only the first k members of every struct are allocated
(e.g. an array of structs with 3 floats), the read of the last struct runs past the end of the array. *)
Theorem C27_avx_deinterleave_refuted :
  forall n k, In (n, k) [(8, 3); (8, 7); (16, 3); (16, 5); (16, 6); (16, 7)]%nat ->
  exists (m : memory Z) (data : Z) (i : Z -> Z),
    members_mapped n k data i m /\ disjoint_structs n k i /\ avx_deinterleave_impl 0 n k AnyIndex data i m = None.
Proof. exact AvxInterleaveMain.C27_avx_deinterleave_refuted_main. Qed.
Print Assumptions C27_avx_deinterleave_refuted.

Example C27_avx_deinterleave_refuted_ex :
  avx_deinterleave_impl 0 8 3 AnyIndex 0 (fun e => e * 3) (mem_of_list 0 (repeat 0 24)) = None /\
  avx_deinterleave_impl 0 8 3 (Successive 3) 0 (fun e => e * 3) (mem_of_list 0 (repeat 0 24)) <> None.
Proof.
  split; [vm_compute; reflexivity|]. intros H. vm_compute in H. discriminate H.
Qed.

(** C26 for AVX vectors: wrapper\[s\] = tie(v0, v1, ...) writes entry e of vector c to member c of struct idx\[e\] (or first
+ e) and nothing else; every struct size below 2^31, 2 .. 8 vectors, every index vector without duplicates whose
offsets idx\[e\] * StructSize are representable as int (for successive structs: as size_t). *)
Theorem C26_avx_write :
  forall (A : Type) (zero : A) va n struct_size data s vs (m : memory A),
    In n [4; 8; 16]%nat -> (2 <= length vs <= 8)%nat -> (length vs <= struct_size)%nat -> Z.of_nat struct_size < 2 ^ 31 ->
    (forall v, In v vs -> length v = n) -> offsets_representable n struct_size s -> different_structs s ->
    members_mapped n (length vs) data (struct_offset struct_size s) m ->
    exists m', avx_wrapper_write zero va n struct_size data s vs m = Some m' /\
      structs_written n data (struct_offset struct_size s) vs m m'.
Proof. exact AvxInterleaveMain.C26_avx_write_main. Qed.
Print Assumptions C26_avx_write.

Example C26_avx_write_ex :
  option_map (fun m' => tab 12 (fun j => m' (100 + j))) (avx_wrapper_write 0 {| x86_64 := true; maskmov_scatter := true |} 4 3 100 (Indexes [3; 0; 2; 1])
    [[1; 2; 3; 4]; [5; 6; 7; 8]; [11; 12; 13; 14]] (mem_of_list 100 (repeat 0 12))) = Some (map Some [2; 6; 12; 4; 8; 14; 3; 7; 13; 1; 5; 11]).
Proof.
  vm_compute. reflexivity.
Qed.

(** C26 for AVX vectors: tie(v0, v1, ...) = wrapper\[s\] reads member c of struct idx\[e\] (or first + e) into entry e of
vector c; duplicate indexes are allowed. *)
Theorem C26_avx_read :
  forall (A : Type) (zero : A) n struct_size k data s (m : memory A),
    In n [4; 8; 16]%nat -> (2 <= k <= 8)%nat -> (0 < struct_size)%nat -> Z.of_nat struct_size < 2 ^ 31 ->
    offsets_representable n struct_size s ->
    members_mapped n (avx_members_read n k (match s with Indexes _ => AnyIndex | First _ => Successive struct_size end)) data (struct_offset struct_size s) m ->
    exists vs, avx_wrapper_read zero n struct_size k data s m = Some vs /\ structs_read n k data (struct_offset struct_size s) m vs.
Proof. exact AvxInterleaveMain.C26_avx_read_main. Qed.
Print Assumptions C26_avx_read.

Example C26_avx_read_ex :
  avx_wrapper_read 0 4 3 2 100 (Indexes [3; 0; 3; 1]) (mem_of_list 100 (tab 12 (fun j => j))) = Some [[9; 0; 9; 3]; [10; 1; 10; 4]] /\
  avx_wrapper_read 0 8 6 6 100 (First 1) (mem_of_list 100 (tab 54 (fun j => j))) = Some (map (fun c => tab 8 (fun e => 6 * e + 6 + c)) [0; 1; 2; 3; 4; 5]).
Proof.
  vm_compute. auto.
Qed.

(** C26 for AVX vectors: reading back at the same subscript what has been written returns the same vectors. *)
Theorem C26_avx_round_trip :
  forall (A : Type) (zero : A) va n struct_size data s vs (m m' : memory A),
    In n [4; 8; 16]%nat -> (2 <= length vs <= 8)%nat -> Z.of_nat struct_size < 2 ^ 31 ->
    (forall v, In v vs -> length v = n) -> offsets_representable n struct_size s -> different_structs s ->
    members_mapped n (avx_members_read n (length vs) (match s with Indexes _ => AnyIndex | First _ => Successive struct_size end)) data (struct_offset struct_size s) m ->
    avx_wrapper_write zero va n struct_size data s vs m = Some m' ->
    avx_wrapper_read zero n struct_size (length vs) data s m' = Some vs.
Proof. exact AvxInterleaveMain.C26_avx_round_trip_main. Qed.
Print Assumptions C26_avx_round_trip.

Example C26_avx_round_trip_ex :
  forall m', avx_wrapper_write 0 {| x86_64 := true; maskmov_scatter := true |} 4 4 100 (First 1) [[1; 2; 3; 4]; [5; 6; 7; 8]; [9; 10; 11; 12]] (mem_of_list 100 (repeat 0 20)) = Some m' ->
    avx_wrapper_read 0 4 4 3 100 (First 1) m' = Some [[1; 2; 3; 4]; [5; 6; 7; 8]; [9; 10; 11; 12]].
Proof.
  intros m' H. apply (f_equal (fun o => match o with Some f => avx_wrapper_read 0 4 4 3 100 (First 1) f | None => None end)) in H. exact (eq_sym H).
Qed.

(** C45: deinterleave(&a, &b, mem) without conversion, AVX vectors with n = 4 (double), 8 (float, int, unsigned int) or 16
(short, unsigned short) entries: a holds the entries mem\[0\], mem\[2\], ..., b the entries mem\[1\], mem\[3\], .... *)
Theorem C45_avx_deinterleave :
  forall (A : Type) (zero d : A) fp n (m : memory A) mem xs, In n [4; 8; 16]%nat -> length xs = (2 * n)%nat -> holds m mem xs ->
    avx_deinterleave_mem zero fp n m mem = Some (tab n (fun i => znth d xs (2 * i)), tab n (fun i => znth d xs (2 * i + 1))).
Proof. exact AvxInterleaveMain.C45_avx_deinterleave_main. Qed.
Print Assumptions C45_avx_deinterleave.

Example C45_avx_deinterleave_ex :
  avx_deinterleave_mem 0 true 8 (mem_of_list 7 (tab 16 (fun i => i))) 7 = Some ([0; 2; 4; 6; 8; 10; 12; 14], [1; 3; 5; 7; 9; 11; 13; 15]).
Proof.
  vm_compute. reflexivity.
Qed.

(** C45: deinterleave(&a, &b, &c, mem), AVX vectors with n = 4 (double) or 8 (float, int, unsigned int) entries: the three
vectors hold the entries mem\[3 i\], mem\[3 i + 1\] and mem\[3 i + 2\]. *)
Theorem C45_avx_deinterleave3 :
  forall (A : Type) (zero d : A) n (m : memory A) mem xs, In n [4; 8]%nat -> length xs = (3 * n)%nat -> holds m mem xs ->
    avx_deinterleave3_mem zero n m mem =
      Some (tab n (fun i => znth d xs (3 * i)), tab n (fun i => znth d xs (3 * i + 1)), tab n (fun i => znth d xs (3 * i + 2))).
Proof. exact AvxInterleaveMain.C45_avx_deinterleave3_main. Qed.
Print Assumptions C45_avx_deinterleave3.

Example C45_avx_deinterleave3_ex :
  avx_deinterleave3_mem 0 4 (mem_of_list 7 (tab 12 (fun i => i))) 7 = Some ([0; 3; 6; 9], [1; 4; 7; 10], [2; 5; 8; 11]).
Proof.
  vm_compute. reflexivity.
Qed.

(** Finding: for short and unsigned short vectors the three-vector deinterleave leaves the loaded vectors as they are: a is
mem\[0 .. 15\] whatever the memory holds. *)
Theorem C45_avx_deinterleave3_refuted :
  (forall (A : Type) (zero d : A) (m : memory A) mem xs, length xs = 48%nat -> holds m mem xs ->
    avx_deinterleave3_mem zero 16 m mem = Some (tab 16 (fun i => znth d xs i), tab 16 (fun i => znth d xs (16 + i)), tab 16 (fun i => znth d xs (32 + i)))) /\
  exists (m : memory Z) mem xs, length xs = 48%nat /\ holds m mem xs /\
    avx_deinterleave3_mem 0 16 m mem <> Some (tab 16 (fun i => znth 0 xs (3 * i)), tab 16 (fun i => znth 0 xs (3 * i + 1)), tab 16 (fun i => znth 0 xs (3 * i + 2))).
Proof. exact AvxInterleaveMain.C45_avx_deinterleave3_refuted_main. Qed.
Print Assumptions C45_avx_deinterleave3_refuted.

Example C45_avx_deinterleave3_refuted_ex :
  avx_deinterleave3_mem 0 16 (mem_of_list 0 (tab 48 (fun i => i))) 0 = Some (tab 16 (fun i => i), tab 16 (fun i => 16 + i), tab 16 (fun i => 32 + i)).
Proof.
  vm_compute. reflexivity.
Qed.

(** C45: AVX int vectors from shorts: entry i of a has the value of mem\[2 i\], entry i of b the value of mem\[2 i + 1\]. *)
Theorem C45_avx_deinterleave_int :
  forall (m : memory (word 2)) mem xs, length xs = 16%nat -> holds m mem xs ->
    exists a b, avx_deinterleave_conv avx_deinterleave_short_int m mem = Some (a, b) /\
       map sval (ylanes 4 a) = tab 8 (fun i => sval (znth (w0 2) xs (2 * i))) /\
       map sval (ylanes 4 b) = tab 8 (fun i => sval (znth (w0 2) xs (2 * i + 1))).
Proof. exact AvxInterleaveMain.C45_avx_deinterleave_int_main. Qed.
Print Assumptions C45_avx_deinterleave_int.

Example C45_avx_deinterleave_int_ex :
  option_map (fun p => (map sval (ylanes 4 (fst p)), map sval (ylanes 4 (snd p)))) (avx_deinterleave_conv avx_deinterleave_short_int (mem_of_list 3 (tab 16 (fun i => mkw 2 (- 1000 * i)))) 3)
  = Some (tab 8 (fun i => -2000 * i), tab 8 (fun i => -2000 * i - 1000)).
Proof.
  vm_compute. reflexivity.
Qed.

(** C45: AVX unsigned int vectors from unsigned shorts: the vectors have the values mem\[2 i\] and mem\[2 i + 1\] if all of
them are below 2^15.  Not proved for all values because it is false: C45_avx_deinterleave_uint_refuted. *)
Theorem C45_avx_deinterleave_uint_partial :
  forall (m : memory (word 2)) mem xs, length xs = 16%nat -> holds m mem xs -> (forall x, In x xs -> uval x < 2 ^ 15) ->
    exists a b, avx_deinterleave_conv avx_deinterleave_ushort_uint m mem = Some (a, b) /\
       map uval (ylanes 4 a) = tab 8 (fun i => uval (znth (w0 2) xs (2 * i))) /\
       map uval (ylanes 4 b) = tab 8 (fun i => uval (znth (w0 2) xs (2 * i + 1))).
Proof. exact AvxInterleaveMain.C45_avx_deinterleave_uint_partial_main. Qed.
Print Assumptions C45_avx_deinterleave_uint_partial.

Example C45_avx_deinterleave_uint_partial_ex :
  option_map (fun p => (map uval (ylanes 4 (fst p)), map uval (ylanes 4 (snd p)))) (avx_deinterleave_conv avx_deinterleave_ushort_uint (mem_of_list 3 (tab 16 (fun i => mkw 2 (2000 * i)))) 3)
  = Some (tab 8 (fun i => 4000 * i), tab 8 (fun i => 4000 * i + 2000)).
Proof.
  vm_compute. reflexivity.
Qed.

(** Finding: the unsigned shorts are sign extended: a value x of at least 2^15 arrives as x + 2^32 - 2^16, e.g. 40000 as
4294941760. *)
Theorem C45_avx_deinterleave_uint_refuted :
  forall (m : memory (word 2)) mem xs, length xs = 16%nat -> holds m mem xs ->
    exists a b, avx_deinterleave_conv avx_deinterleave_ushort_uint m mem = Some (a, b) /\
      forall i, 0 <= i < 8 -> 2 ^ 15 <= uval (znth (w0 2) xs (2 * i)) -> uval (znth (w0 4) (ylanes 4 a) i) = uval (znth (w0 2) xs (2 * i)) + 2 ^ 32 - 2 ^ 16.
Proof. exact AvxInterleaveMain.C45_avx_deinterleave_uint_refuted_main. Qed.
Print Assumptions C45_avx_deinterleave_uint_refuted.

Example C45_avx_deinterleave_uint_refuted_ex :
  option_map (fun p => map uval (ylanes 4 (fst p))) (avx_deinterleave_conv avx_deinterleave_ushort_uint (mem_of_list 3 (tab 16 (fun i => mkw 2 40000))) 3)
  = Some (repeat 4294941760 8).
Proof.
  vm_compute. reflexivity.
Qed.

(** C45: AVX float vectors from shorts and from unsigned shorts: entry i of a has the value of mem\[2 i\], entry i of b the
value of mem\[2 i + 1\]. *)
Theorem C45_avx_deinterleave_float :
  forall (m : memory (word 2)) mem xs, length xs = 16%nat -> holds m mem xs ->
    (exists a b, avx_deinterleave_conv avx_deinterleave_short_float m mem = Some (a, b) /\
       Forall2 has_value (ylanes 4 a) (tab 8 (fun i => sval (znth (w0 2) xs (2 * i)))) /\
       Forall2 has_value (ylanes 4 b) (tab 8 (fun i => sval (znth (w0 2) xs (2 * i + 1))))) /\
    (exists a b, avx_deinterleave_conv avx_deinterleave_ushort_float m mem = Some (a, b) /\
       Forall2 has_value (ylanes 4 a) (tab 8 (fun i => uval (znth (w0 2) xs (2 * i)))) /\
       Forall2 has_value (ylanes 4 b) (tab 8 (fun i => uval (znth (w0 2) xs (2 * i + 1))))).
Proof. exact AvxInterleaveMain.C45_avx_deinterleave_float_main. Qed.
Print Assumptions C45_avx_deinterleave_float.

Example C45_avx_deinterleave_float_ex :
  option_map (fun p => (map uval (ylanes 4 (fst p)), map uval (ylanes 4 (snd p)))) (avx_deinterleave_conv avx_deinterleave_ushort_float (mem_of_list 3 (tab 16 (fun i => mkw 2 (i mod 8 + 1)))) 3)
  = Some ([0x3F800000; 0x40400000; 0x40A00000; 0x40E00000; 0x3F800000; 0x40400000; 0x40A00000; 0x40E00000],
          [0x40000000; 0x40800000; 0x40C00000; 0x41000000; 0x40000000; 0x40800000; 0x40C00000; 0x41000000]).
Proof.
  vm_compute. reflexivity.
Qed.
