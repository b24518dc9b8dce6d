(** SimdArray<T, N> in a build with SSE: the properties of SimdArrayProps without any assumption about the native vectors, whose code is modelled at register level *)
From Coq Require Import ZArith List Bool Lia Permutation.
From Verif.Spec Require Import Seq NativeSpec.
From Verif.Model Require Import SplitSize SimdArray ScalarVec Word Fp SseReg SseMove SortNet SseBuild.
Import ListNotations.
Local Open Scope Z_scope.
From Verif.Proof Require SseBuildMain.

(** C05: SSE builds (with and without SSSE3), element types short, unsigned short, int, unsigned int, float,
    double; every power-of-two size, every amount. *)
Theorem C05_sse_shifted :
  forall ssse3 e add j (t : sa (elt e)) k, wf (sse_native (esize e)) (Nat.pow 2 j) t ->
    exists r, shifted (sse_native (esize e)) (sse_build ssse3 e add) (w0 _) t k = Some r /\
      wf (sse_native (esize e)) (Nat.pow 2 j) r /\ to_list r = shift_spec (w0 _) (to_list t) k.
Proof. exact SseBuildMain.C05_sse_shifted_main. Qed.
Print Assumptions C05_sse_shifted.

Example C05_sse_shifted_ex :
  option_map (fun r => map uval (to_list r)) (shifted (sse_native 4) (sse_build false Int wadd) (w0 4)
    (generate (sse_native 4) 8 (fun i => mkw 4 (i - 1))) 3) = Some [2; 3; 4; 5; 6; 0; 0; 0].
Proof. vm_compute. reflexivity. Qed.

(** C05: a single SSE vector (size = sixteen bytes / sizeof(T)), every amount. *)
Theorem C05_sse_vector_shifted :
  forall ssse3 e add (xs : list (elt e)) k, length xs = (16 / esize e)%nat ->
    n_shifted (sse_build ssse3 e add) xs k = shift_spec (w0 _) xs k.
Proof. exact SseBuildMain.C05_sse_vector_shifted_main. Qed.
Print Assumptions C05_sse_vector_shifted.

Example C05_sse_vector_shifted_ex :
  map uval (n_shifted (sse_build true Short wadd) (tab 8 (mkw 2)) (-3)) = [0; 0; 0; 0; 1; 2; 3; 4].
Proof. vm_compute. reflexivity. Qed.

(** C06: SSE builds, every size, every amount up to the size in both directions. *)
Theorem C06_sse_shifted_in :
  forall ssse3 e add n (t s : sa (elt e)) k,
    wf (sse_native (esize e)) n t -> wf (sse_native (esize e)) n s -> - Z.of_nat n <= k <= Z.of_nat n ->
    exists r, shifted_in (sse_native (esize e)) (sse_build ssse3 e add) (w0 _) t k s = Some r /\
      wf (sse_native (esize e)) n r /\ to_list r = shiftin_spec (w0 _) (to_list t) (to_list s) k.
Proof. exact SseBuildMain.C06_sse_shifted_in_main. Qed.
Print Assumptions C06_sse_shifted_in.

Example C06_sse_shifted_in_ex :
  option_map (fun r => map uval (to_list r)) (shifted_in (sse_native 4) (sse_build false Float wadd) (w0 4)
    (generate (sse_native 4) 5 (fun i => mkw 4 i)) (-2) (generate (sse_native 4) 5 (fun i => mkw 4 (i + 10)))) =
    Some [13; 14; 0; 1; 2].
Proof. vm_compute. reflexivity. Qed.

(** Finding: for a single int_v, uint_v or float_v the amounts 9..15 (where the documented result is s moved by
    amount - Size, then zeros) wrap around in the byte count (s & 0x1f) of the SSE2 emulation of palignr:
    amount Size + 4 + j yields what amount j yields. *)
Theorem C06_sse_vector_shifted_in_refuted :
  forall (e : etype) add (xs s : list (elt e)) j, esize e = 4%nat -> length xs = 4%nat -> length s = 4%nat -> 1 <= j <= 3 ->
    n_shifted_in (sse_build false e add) xs (8 + j) s = n_shifted_in (sse_build false e add) xs j s.
Proof. exact SseBuildMain.C06_sse_vector_shifted_in_refuted_main. Qed.
Print Assumptions C06_sse_vector_shifted_in_refuted.

Example C06_sse_vector_shifted_in_refuted_ex :
  map uval (n_shifted_in (sse_build false Int wadd) (tab 4 (mkw 4)) 9 (tab 4 (fun i => mkw 4 (i + 10)))) = [1; 2; 3; 10] /\
  map uval (shiftin_spec (w0 4) (tab 4 (mkw 4)) (tab 4 (fun i => mkw 4 (i + 10))) 9) = [0; 0; 0; 0].
Proof. vm_compute. auto. Qed.

(** C07: SSE builds, every size, every amount. *)
Theorem C07_sse_rotated :
  forall ssse3 e add n (t : sa (elt e)) k, wf (sse_native (esize e)) n t ->
    exists r, rotated (sse_native (esize e)) (sse_build ssse3 e add) (w0 _) t k = Some r /\
      wf (sse_native (esize e)) n r /\ to_list r = rotate_spec (w0 _) (to_list t) k.
Proof. exact SseBuildMain.C07_sse_rotated_main. Qed.
Print Assumptions C07_sse_rotated.

Example C07_sse_rotated_ex :
  option_map (fun r => map uval (to_list r)) (rotated (sse_native 2) (sse_build false UShort wadd) (w0 2)
    (generate (sse_native 2) 11 (mkw 2)) (-14)) = Some [8; 9; 10; 0; 1; 2; 3; 4; 5; 6; 7].
Proof. vm_compute. reflexivity. Qed.

(** C08: SSE builds, every size. *)
Theorem C08_sse_reversed :
  forall ssse3 e add n (t : sa (elt e)), wf (sse_native (esize e)) n t ->
    exists r, reversed (sse_native (esize e)) (sse_build ssse3 e add) (w0 _) t = Some r /\
      wf (sse_native (esize e)) n r /\ to_list r = rev (to_list t).
Proof. exact SseBuildMain.C08_sse_reversed_main. Qed.
Print Assumptions C08_sse_reversed.

Example C08_sse_reversed_ex :
  option_map (fun r => map uval (to_list r)) (reversed (sse_native 8) (sse_build false Double wadd) (w0 8)
    (generate (sse_native 8) 7 (mkw 8))) = Some [6; 5; 4; 3; 2; 1; 0].
Proof. vm_compute. reflexivity. Qed.

(** C08: int_v and uint_v use another instruction for the same result. *)
Theorem C08_sse_reversed_epi32 :
  forall xs : list (word 4), length xs = 4%nat ->
    of_reg 4 dec (sse_reversed_epi32 (to_reg enc xs)) = rev xs.
Proof. exact SseBuildMain.C08_sse_reversed_epi32_main. Qed.
Print Assumptions C08_sse_reversed_epi32.

(** C09: SSE builds, every size. *)
Theorem C09_sse_interleave :
  forall ssse3 e add n (t x : sa (elt e)), wf (sse_native (esize e)) n t -> wf (sse_native (esize e)) n x ->
    exists lo hi, interleave_low (sse_native (esize e)) (sse_build ssse3 e add) (w0 _) t x = Some lo /\
      interleave_high (sse_native (esize e)) (sse_build ssse3 e add) (w0 _) t x = Some hi /\
      wf (sse_native (esize e)) n lo /\ wf (sse_native (esize e)) n hi /\
      to_list lo ++ to_list hi = interleave_spec (to_list t) (to_list x).
Proof. exact SseBuildMain.C09_sse_interleave_main. Qed.
Print Assumptions C09_sse_interleave.

Example C09_sse_interleave_ex :
  let t := generate (sse_native 4) 5 (mkw 4) in let x := generate (sse_native 4) 5 (fun i => mkw 4 (i + 10)) in
  (option_map (fun r => map uval (to_list r)) (interleave_low (sse_native 4) (sse_build false UInt wadd) (w0 4) t x),
   option_map (fun r => map uval (to_list r)) (interleave_high (sse_native 4) (sse_build false UInt wadd) (w0 4) t x)) =
  (Some [0; 10; 1; 11; 2], Some [12; 3; 13; 4; 14]).
Proof. vm_compute. reflexivity. Qed.

(** C10: SSE builds, the integer types, every size: the networks of sse_sorthelper.cpp inside the bitonic merge of
    SimdArray. *)
Theorem C10_sse_sorted :
  forall ssse3 e add n (t : sa (elt e)), is_integer e = true -> wf (sse_native (esize e)) n t ->
    exists r, sorted (sse_native (esize e)) (sse_build ssse3 e add) (w0 _) (e_min e) (e_max e) (e_top e) t = Some r /\
      wf (sse_native (esize e)) n r /\ sorted_spec (e_le e) (to_list r) /\ Permutation (to_list r) (to_list t).
Proof. exact SseBuildMain.C10_sse_sorted_main. Qed.
Print Assumptions C10_sse_sorted.

Example C10_sse_sorted_ex :
  option_map (fun r => map sval (to_list r)) (sorted (sse_native 2) (sse_build false Short wadd) (w0 2) (e_min Short) (e_max Short) (e_top Short)
    (generate (sse_native 2) 11 (fun i => mkw 2 ((i * 5 + 3) mod 11 - 5)))) = Some [-5; -4; -3; -2; -1; 0; 1; 2; 3; 4; 5].
Proof. vm_compute. reflexivity. Qed.

(** C10: the AVX2 networks of avx_sorthelper.cpp: 16 short / unsigned short, 8 int / unsigned int with their early
    exits, 8 float, 4 double, for every total order of the entries. *)
Theorem C10_avx2_sorted :
  forall (A : Type) (le : A -> A -> bool) (mn mx : A -> A -> A) (xs : list A),
    total_order le -> (forall x y, mn x y = if le x y then x else y) -> (forall x y, mx x y = if le x y then y else x) ->
    (length xs = 16%nat -> sorted_spec le (avx_sorted16 mn mx xs) /\ Permutation (avx_sorted16 mn mx xs) xs) /\
    (length xs = 8%nat -> forall zero, sorted_spec le (avx_sorted32 zero mn mx (fun a b => le b a) xs) /\
                          Permutation (avx_sorted32 zero mn mx (fun a b => le b a) xs) xs) /\
    (length xs = 8%nat -> sorted_spec le (avx_sorted_ps mn mx xs) /\ Permutation (avx_sorted_ps mn mx xs) xs) /\
    (length xs = 4%nat -> sorted_spec le (avx_sorted_pd mn mx xs) /\ Permutation (avx_sorted_pd mn mx xs) xs).
Proof. exact SseBuildMain.C10_avx2_sorted_main. Qed.
Print Assumptions C10_avx2_sorted.

Example C10_avx2_sorted_ex :
  total_order Z.leb /\
  avx_sorted16 Z.min Z.max [3; -1; 4; 1; -5; 9; 2; 6; 5; 3; 5; 8; 9; 7; 9; -3] = [-5; -3; -1; 1; 2; 3; 3; 4; 5; 5; 6; 7; 8; 9; 9; 9].
Proof. split; [split; intros; rewrite ?Z.leb_le in *; lia|vm_compute; reflexivity]. Qed.

(** C11: float_v / double_v sorted() of the SSE and AVX builds (minps / maxps networks): if no entry is NaN, no
    entry of the result is NaN, the result is in non-decreasing order, and its values are those of the input
    with the same multiplicities (+0 and -0 being the same value). *)
Theorem C11_sorted_float :
  (forall xs : list (word 4), length xs = 4%nat -> (forall x, In x xs -> is_nan x = false) ->
     let out := sse_sort Float xs in
     (forall x, In x out -> is_nan x = false) /\ sorted_spec fle out /\ Permutation (map fkey out) (map fkey xs)) /\
  (forall xs : list (word 8), length xs = 2%nat -> (forall x, In x xs -> is_nan x = false) ->
     let out := sse_sort Double xs in
     (forall x, In x out -> is_nan x = false) /\ sorted_spec fle out /\ Permutation (map fkey out) (map fkey xs)) /\
  (forall xs : list (word 4), length xs = 8%nat -> (forall x, In x xs -> is_nan x = false) ->
     let out := avx_sorted_ps mm_fmin mm_fmax xs in
     (forall x, In x out -> is_nan x = false) /\ sorted_spec fle out /\ Permutation (map fkey out) (map fkey xs)) /\
  (forall xs : list (word 8), length xs = 4%nat -> (forall x, In x xs -> is_nan x = false) ->
     let out := avx_sorted_pd mm_fmin mm_fmax xs in
     (forall x, In x out -> is_nan x = false) /\ sorted_spec fle out /\ Permutation (map fkey out) (map fkey xs)).
Proof. exact SseBuildMain.C11_sorted_float_main. Qed.
Print Assumptions C11_sorted_float.

(** 1.0f, -2.5f, -0.0f, +inf *)
Example C11_sorted_float_ex :
  let xs := map (mkw 4) [0x3f800000; 0xc0200000; 0x80000000; 0x7f800000] in
  forallb (fun x => negb (is_nan x)) xs = true /\
  map uval (sse_sort Float xs) = [0xc0200000; 0x80000000; 0x3f800000; 0x7f800000].
Proof. vm_compute. auto. Qed.

(** Finding: with both zeros in the input the result is not a permutation of the bit patterns: double_v{+0, -0}
    sorts to {-0, -0}. *)
Theorem C11_sorted_zeros_refuted :
  exists xs : list (word 8), length xs = 2%nat /\ (forall x, In x xs -> is_nan x = false) /\
    ~ Permutation (map uval (sse_sort Double xs)) (map uval xs).
Proof. exact SseBuildMain.C11_sorted_zeros_refuted_main. Qed.
Print Assumptions C11_sorted_zeros_refuted.

(** Finding: a NaN makes sorted() lose other entries and duplicate some: double_v{NaN, 1} sorts to {1, 1}. *)
Theorem C11_sorted_nan_refuted :
  exists xs : list (word 8), length xs = 2%nat /\ ~ Permutation (map uval (sse_sort Double xs)) (map uval xs).
Proof. exact SseBuildMain.C11_sorted_nan_refuted_main. Qed.
Print Assumptions C11_sorted_nan_refuted.

(** C12: SSE builds, every size, wrap-around integer addition. *)
Theorem C12_sse_partial_sum :
  forall ssse3 e n (t : sa (elt e)), is_integer e = true -> wf (sse_native (esize e)) n t ->
    exists r, partial_sum (sse_build ssse3 e wadd) (w0 _) wadd t = Some r /\
      wf (sse_native (esize e)) n r /\ to_list r = partial_sum_spec wadd (to_list t).
Proof. exact SseBuildMain.C12_sse_partial_sum_main. Qed.
Print Assumptions C12_sse_partial_sum.

Example C12_sse_partial_sum_ex :
  option_map (fun r => map uval (to_list r)) (partial_sum (sse_build false UShort wadd) (w0 2) wadd
    (generate (sse_native 2) 11 (fun i => mkw 2 (10000 * i)))) =
  Some [0; 10000; 30000; 60000; 34464; 18928; 13392; 17856; 32320; 56784; 25712].
Proof. vm_compute. reflexivity. Qed.
