(** operator new of vectors, of SimdArray and of the helper classes for aligned objects *)
From Coq Require Import ZArith List Bool Lia.
From Verif.Spec Require Import NativeSpec LayoutSpec HeapSpec.
From Verif.Model Require Import SplitSize SimdArray SseBuild SseMove MemoryClass Malloc ElementRef HeapNew.
Import ListNotations.
Local Open Scope Z_scope.
From Verif.Proof Require HeapNewMain.

(** An object of a class derived from VectorAlignedBase or MemoryAlignedBase that is created with new (or an array created with new[])
is at an address that is suitable for every Vector<T>, in every implementation, and has its storage. *)
Theorem C85_aligned_base :
  forall posix_memalign owned i size p, system_ok posix_memalign owned -> 0 <= size -> size + 32 <= 2 ^ 64 ->
    aligned_base_new posix_memalign i size = Some p -> forall t, room_for owned p size (vector_align i t).
Proof. exact HeapNewMain.C85_aligned_base_main. Qed.
Print Assumptions C85_aligned_base.

Example C85_aligned_base_ex :
  let posix_memalign al s := if s <? 1000 then Some (5 * al) else None in
  system_ok posix_memalign (fun _ _ => True) /\
  aligned_base_new posix_memalign IAvx 100 = Some 160 /\ aligned_base_new posix_memalign IScalar 3 = Some 40.
Proof.
  cbv zeta. split; [|vm_compute; auto]. intros k s q K Hs H. destruct (s <? 1000); [|discriminate H]. injection H as <-. split; [exists 5; reflexivity|exact I].
Qed.

(** Vc::malloc<T, Vc::AlignOnVector>(n), which aligns at Vc::VectorAlignment, the alignment of VectorAlignedBase, returns an address that
is suitable for vectors of every entry type, with storage for n objects. *)
Theorem C85_malloc_vector :
  forall posix_memalign owned i sizeof_t n p, system_ok posix_memalign owned -> 0 <= n -> 1 <= sizeof_t -> n * sizeof_t + 32 <= 2 ^ 64 ->
    malloc posix_memalign (aligned_base i) sizeof_t AlignOnVector n = Some p -> forall t, room_for owned p (n * sizeof_t) (vector_align i t).
Proof. exact HeapNewMain.C85_malloc_vector_main. Qed.
Print Assumptions C85_malloc_vector.

Example C85_malloc_vector_ex :
  let posix_memalign al s := if s <? 1000 then Some (5 * al) else None in
  malloc posix_memalign (aligned_base IAvx) 4 AlignOnVector 11 = Some 160 /\ malloc posix_memalign (aligned_base ISse) 4 AlignOnVector 11 = Some 80.
Proof.
  vm_compute. auto.
Qed.

(** new SimdArray<T, N> returns an address that is a multiple of alignof(SimdArray<T, N>), with room for the object, if the array is one
native vector, or if its entries, their number rounded up to a power of two, take at most 8 bytes, or more than the limit that the
compiler sets to alignments ([bound], 2^7 or 2^8 bytes with GCC).  What is missing: all other sizes, see C85_array_new_refuted. *)
Theorem C85_array_new_partial :
  forall posix_memalign owned native bound e n k p, system_ok posix_memalign owned ->
    widths_ok native -> (forall b, bound = Some b -> 0 <= b) -> 0 <= e -> (1 <= n)%nat ->
    (forall b m, bound = Some b -> native m = true -> Z.of_nat m * 2 ^ e <= 2 ^ b) ->
    0 <= k -> Z.of_nat n <= 2 ^ k < 2 * Z.of_nat n -> 2 ^ k * 2 ^ e <= 2 ^ 62 ->
    native n = true \/ 2 ^ k * 2 ^ e <= 8 \/ (exists b, bound = Some b /\ 2 ^ b < 2 ^ k * 2 ^ e) ->
    array_new posix_memalign native bound (2 ^ e) n = Some p ->
    let object := simdarray_placement native bound (2 ^ e) n in room_for owned p (p_size object) (p_align object).
Proof. exact HeapNewMain.C85_array_new_partial_main. Qed.
Print Assumptions C85_array_new_partial.

Example C85_array_new_partial_ex :
  let posix_memalign al s := if s <? 1000 then Some (5 * al) else None in
  array_new posix_memalign (sse_native 4) (Some 7) 4 4 = Some 80 /\ array_new posix_memalign (sse_native 4) (Some 7) 4 49 = Some 640 /\
  p_align (simdarray_placement (sse_native 4) (Some 7) 4 49) = 128 /\ Z.of_nat 49 <= 2 ^ 6 < 2 * Z.of_nat 49 /\ 2 ^ 7 < 2 ^ 6 * 2 ^ 2.
Proof.
  vm_compute. repeat split; intros; discriminate.
Qed.

(** Finding: for every other size N, new SimdArray<T, N> asks for the alignment of the left half only, which is at most half of
alignof(SimdArray<T, N>), so that the address need not be suitable for the object.  With SSE, new SimdArray<float, 8> has an address
that is a multiple of 16, not of 32, although alignof(SimdArray<float, 8>) is 32. *)
Theorem C85_array_new_refuted :
  forall native bound e n k, widths_ok native -> (forall b, bound = Some b -> 0 <= b) -> 0 <= e -> (1 <= n)%nat ->
    0 <= k -> Z.of_nat n <= 2 ^ k < 2 * Z.of_nat n ->
    native n = false -> 8 < 2 ^ k * 2 ^ e -> (forall b, bound = Some b -> 2 ^ k * 2 ^ e <= 2 ^ b) ->
    exists posix_memalign p, system_ok posix_memalign (fun _ _ => True) /\
      array_new posix_memalign native bound (2 ^ e) n = Some p /\ ~ (p_align (simdarray_placement native bound (2 ^ e) n) | p).
Proof. exact HeapNewMain.C85_array_new_refuted_main. Qed.
Print Assumptions C85_array_new_refuted.

Example C85_array_new_refuted_ex :
  array_new (fun al _ => Some al) (sse_native 4) (Some 7) 4 8 = Some 16 /\ p_align (simdarray_placement (sse_native 4) (Some 7) 4 8) = 32 /\
  sse_native 4 8 = false /\ Z.of_nat 8 <= 2 ^ 3 < 2 * Z.of_nat 8.
Proof.
  vm_compute. repeat split; intros; discriminate.
Qed.

(** new SimdMaskArray<T, N> always returns an address that is a multiple of alignof(SimdMaskArray<T, N>), with room for the object.  The
condition on the native masks (as large as the vectors, or masks of vectors of at most 8 bytes) holds for SSE, AVX and Scalar masks. *)
Theorem C85_mask_array_new :
  forall posix_memalign owned native bound e ms n p, system_ok posix_memalign owned ->
    widths_ok native -> (forall b, bound = Some b -> 0 <= b) -> 0 <= e -> (1 <= n)%nat ->
    (forall m, native m = true -> (exists j, 0 <= j /\ ms m = 2 ^ j) /\ Z.of_nat m * 2 ^ e <= Z.max 8 (ms m)) ->
    let object := mask_placement n native bound (2 ^ e) ms n in fst object + snd object <= 2 ^ 64 ->
    mask_new posix_memalign native bound (2 ^ e) ms n = Some p -> room_for owned p (fst object) (snd object).
Proof. exact HeapNewMain.C85_mask_array_new_main. Qed.
Print Assumptions C85_mask_array_new.

Example C85_mask_array_new_ex :
  let posix_memalign al s := if s <? 1000 then Some (5 * al) else None in let ms n := if Nat.eqb n 4 then 16 else 1 in
  (forall m, sse_native 4 m = true -> (exists j, 0 <= j /\ ms m = 2 ^ j) /\ Z.of_nat m * 2 ^ 2 <= Z.max 8 (ms m)) /\
  mask_placement 8 (sse_native 4) (Some 7) 4 ms 8 = (32, 32) /\ mask_new posix_memalign (sse_native 4) (Some 7) 4 ms 8 = Some 160 /\
  mask_new posix_memalign (sse_native 4) (Some 7) 4 ms 1 = Some 40.
Proof.
  cbv zeta. split; [|vm_compute; auto]. intros m H. destruct (Nat.eqb_spec m 4) as [->|Q]; [split; [exists 4; split; [lia|reflexivity]|vm_compute; discriminate]|].
  assert (m = 1)%nat as ->. { unfold sse_native in H. destruct m as [|[|m]]; try discriminate H; [reflexivity|]. apply orb_true_iff in H as [H|H]; [discriminate H|]. apply Nat.eqb_eq in H. exfalso. apply Q. exact H. }
  split; [exists 0; split; [lia|reflexivity]|vm_compute; discriminate].
Qed.

(** In new SimdMaskArray<T, N>[count] every element is at a multiple of alignof(SimdMaskArray<T, N>), and there is room for all of them. *)
Theorem C85_mask_array_new_array :
  forall posix_memalign owned native bound e ms n count p, system_ok posix_memalign owned ->
    widths_ok native -> (forall b, bound = Some b -> 0 <= b) -> 0 <= e -> (1 <= n)%nat -> 0 <= count ->
    (forall m, native m = true -> (exists j, 0 <= j /\ ms m = 2 ^ j) /\ Z.of_nat m * 2 ^ e <= Z.max 8 (ms m)) ->
    let object := mask_placement n native bound (2 ^ e) ms n in 8 + count * fst object + 2 * snd object <= 2 ^ 64 ->
    mask_new_array posix_memalign native bound (2 ^ e) ms n count = Some p ->
    (exists start s, owned start s /\ start <= p /\ p + count * fst object <= start + s) /\
    forall i, 0 <= i < count -> (snd object | p + i * fst object).
Proof. exact HeapNewMain.C85_mask_array_new_array_main. Qed.
Print Assumptions C85_mask_array_new_array.

Example C85_mask_array_new_array_ex :
  let posix_memalign al s := if s <? 1000 then Some (5 * al) else None in let ms n := if Nat.eqb n 4 then 16 else 1 in
  (forall m, sse_native 4 m = true -> (exists j, 0 <= j /\ ms m = 2 ^ j) /\ Z.of_nat m * 2 ^ 2 <= Z.max 8 (ms m)) /\
  mask_placement 8 (sse_native 4) (Some 7) 4 ms 8 = (32, 32) /\ mask_new_array posix_memalign (sse_native 4) (Some 7) 4 ms 8 3 = Some 192.
Proof.
  cbv zeta. split; [|vm_compute; auto]. intros m H. destruct (Nat.eqb_spec m 4) as [->|Q]; [split; [exists 4; split; [lia|reflexivity]|vm_compute; discriminate]|].
  assert (m = 1)%nat as ->. { unfold sse_native in H. destruct m as [|[|m]]; try discriminate H; [reflexivity|]. apply orb_true_iff in H as [H|H]; [discriminate H|]. apply Nat.eqb_eq in H. exfalso. apply Q. exact H. }
  split; [exists 0; split; [lia|reflexivity]|vm_compute; discriminate].
Qed.
