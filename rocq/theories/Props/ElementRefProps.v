(** object layout of SimdArray and references to entries *)
From Coq Require Import ZArith List Bool Lia.
From Verif.Spec Require Import Seq NativeSpec LayoutSpec.
From Verif.Model Require Import SplitSize ScalarVec SimdArray SimdArrayOps SseBuild SortNet SseMove ElementRef.
Import ListNotations.
Local Open Scope Z_scope.
From Verif.Proof Require ElementRefMain.

(** C67: the entries of a SimdArray<T, N> are adjacent: entry i is at the offset i * sizeof(T) of the object, which is what a[i]
(simdarray.h:1018) and the library's users that cast to T* rely on; and the size of the object is N * sizeof(T) rounded up to the
alignment, so that there is no padding for N a power of two.  For every N, all native widths, and every bound on alignments. *)
Theorem C67_layout :
  forall native bound e n, widths_ok native -> (forall b, bound = Some b -> 0 <= b) -> 0 <= e -> (1 <= n)%nat ->
    let p := simdarray_placement native bound (2 ^ e) n in
    p_offsets p = tab n (fun i => i * 2 ^ e) /\ rounded_up (Z.of_nat n * 2 ^ e) (p_align p) (p_size p) /\
    (exists j, 0 <= j /\ p_align p = 2 ^ j) /\ (forall k, n = Nat.pow 2 k -> p_size p = Z.of_nat n * 2 ^ e).
Proof. exact ElementRefMain.C67_layout_main. Qed.
Print Assumptions C67_layout.

Example C67_layout_ex :
  (forall b, Some 7 = Some b -> 0 <= b) /\
  simdarray_placement (sse_native 4) (Some 7) 4 7 = {| p_size := 32; p_align := 32; p_offsets := [0; 4; 8; 12; 16; 20; 24] |} /\
  p_size (simdarray_placement (sse_native 4) (Some 7) 4 100) = 512 /\ p_size (simdarray_placement (sse_native 4) (Some 5) 4 100) = 416.
Proof.
  split; [intros b H; injection H as <-; lia|vm_compute; auto].
Qed.

(** C67: through a reference a[i] one can read entry i, assign to it, apply a compound assignment, increment, decrement and swap it
with another entry of the same or another object or with a variable; the entry becomes the value the scalar operation gives, and
no other entry changes.  An index that is not below N is undefined. *)
Theorem C67_reference :
  forall (A : Type) (zero : A) native n (t u : sa A) i j, widths_ok native -> wf native n t -> wf native n u ->
    let g := SimdArray.get zero in
    (0 <= i < Z.of_nat n -> 0 <= j < Z.of_nat n ->
      let x := znth zero (to_list t) i in let y := znth zero (to_list t) j in let z := znth zero (to_list u) j in
      ref_read g t i = Some x /\
      (forall v, exists t', ref_assign g t i v = Some t' /\ wf native n t' /\ replaced (to_list t) i v (to_list t')) /\
      (forall f, exists t', ref_compound g f t i = Some t' /\ wf native n t' /\ replaced (to_list t) i (f x) (to_list t')) /\
      (forall f, exists t', ref_pre g f t i = Some t' /\ wf native n t' /\ replaced (to_list t) i (f x) (to_list t')) /\
      (forall f, exists t', ref_post g f t i = Some (x, t') /\ wf native n t' /\ replaced (to_list t) i (f x) (to_list t')) /\
      (exists t' u', ref_swap2 g t i u j = Some (t', u') /\ wf native n t' /\ wf native n u' /\ replaced (to_list t) i z (to_list t') /\ replaced (to_list u) j x (to_list u')) /\
      (exists t1 t2, ref_swap1 g t i j = Some t2 /\ wf native n t2 /\ replaced (to_list t) i y t1 /\ replaced t1 j x (to_list t2)) /\
      (forall v, exists t', ref_swap_value g t i v = Some (t', x) /\ wf native n t' /\ replaced (to_list t) i v (to_list t'))) /\
    (~ 0 <= i < Z.of_nat n -> ref_read g t i = None /\ forall f, ref_compound g f t i = None).
Proof. exact ElementRefMain.C67_reference_main. Qed.
Print Assumptions C67_reference.

Example C67_reference_ex :
  let t := Node (Leaf [1; 2]) (Leaf [3]) in
  option_map to_list (ref_swap1 (SimdArray.get 0) t 0 2) = Some [3; 2; 1] /\ option_map to_list (ref_compound (SimdArray.get 0) (Z.mul 5) t 1) = Some [1; 10; 3] /\
  ref_post (SimdArray.get 0) (Z.add 1) t 2 = Some (3, Node (Leaf [1; 2]) (Leaf [4])).
Proof.
  vm_compute. repeat split.
Qed.

(** C67: the same for the entries of masks. *)
Theorem C67_mask_reference :
  forall native n (t u : sa bool) i j, widths_ok native -> wf native n t -> wf native n u ->
    let g := mask_get in
    (0 <= i < Z.of_nat n -> 0 <= j < Z.of_nat n ->
      let x := znth false (to_list t) i in let y := znth false (to_list t) j in let z := znth false (to_list u) j in
      ref_read g t i = Some x /\
      (forall v, exists t', ref_assign g t i v = Some t' /\ wf native n t' /\ replaced (to_list t) i v (to_list t')) /\
      (forall f, exists t', ref_compound g f t i = Some t' /\ wf native n t' /\ replaced (to_list t) i (f x) (to_list t')) /\
      (forall f, exists t', ref_pre g f t i = Some t' /\ wf native n t' /\ replaced (to_list t) i (f x) (to_list t')) /\
      (forall f, exists t', ref_post g f t i = Some (x, t') /\ wf native n t' /\ replaced (to_list t) i (f x) (to_list t')) /\
      (exists t' u', ref_swap2 g t i u j = Some (t', u') /\ wf native n t' /\ wf native n u' /\ replaced (to_list t) i z (to_list t') /\ replaced (to_list u) j x (to_list u')) /\
      (exists t1 t2, ref_swap1 g t i j = Some t2 /\ wf native n t2 /\ replaced (to_list t) i y t1 /\ replaced t1 j x (to_list t2)) /\
      (forall v, exists t', ref_swap_value g t i v = Some (t', x) /\ wf native n t' /\ replaced (to_list t) i v (to_list t'))) /\
    (~ 0 <= i < Z.of_nat n -> ref_read g t i = None /\ forall f, ref_compound g f t i = None).
Proof. exact ElementRefMain.C67_mask_reference_main. Qed.
Print Assumptions C67_mask_reference.

Example C67_mask_reference_ex :
  let t := Node (Leaf [true; false]) (Leaf [true]) in
  option_map to_list (ref_swap1 mask_get t 1 2) = Some [true; true; false] /\ option_map to_list (ref_assign mask_get t 2 false) = Some [true; false; false].
Proof.
  vm_compute. repeat split.
Qed.
