(** simd_for_each, apply, call, fill and callWithValuesSorted *)
From Coq Require Import ZArith List Bool Lia Permutation.
From Verif.Spec Require Import Seq NativeSpec MaskSpec FloatSpec MemSpec AlgorithmSpec.
From Verif.Model Require Import Word Fp SplitSize SimdArray SimdArrayOps ScalarVec Mem SseMove SseBuild BitScan SseMask Algorithms.
Import ListNotations.
Local Open Scope Z_scope.
From Verif.Proof Require AlgorithmsMain.

(** C28: what "cut into blocks" means: the blocks partition the range in order; all have the vector width
except for at most width-1 single elements at the end. *)
Theorem C28_blocks :
  forall (A : Type) w (xs : list A), (1 <= w)%nat ->
    concat (blocks w xs) = xs /\ map (@length A) (blocks w xs) = repeat w (length xs / w) ++ repeat 1%nat (length xs mod w).
Proof. exact AlgorithmsMain.C28_blocks_main. Qed.
Print Assumptions C28_blocks.

Example C28_blocks_ex :
  blocks 4 [1; 2; 3; 4; 5; 6] = [[1; 2; 3; 4]; [5]; [6]].
Proof.
  reflexivity.
Qed.

(** C28: simd_for_each(first, last, f) terminates after at most last - first calls and calls f with every element
of the range exactly once, in order, in whole vectors and then one by one; when f takes its argument by
reference, the results replace the range; no other memory is read or changed.
(In terms of the model: started in any memory where only the range needs to be allocated, it succeeds.) *)
Theorem C28_for_each :
  forall (A S : Type) w mut (f : S -> list A -> S * list A) (m : memory A) first xs s,
    (1 <= w)%nat -> (forall s v, length (snd (f s v)) = length v) -> holds m first xs ->
    exists m', simd_for_each w mut f (length xs) first (first + Z.of_nat (length xs)) s m =
                 Some (fst (run_calls f s (blocks w xs)), m') /\
      if mut : bool then replaced m first (concat (snd (run_calls f s (blocks w xs)))) m' else m' = m.
Proof. exact AlgorithmsMain.C28_for_each_main. Qed.
Print Assumptions C28_for_each.

Example C28_for_each_ex :
  let m : memory Z := fun a => if (10 <=? a) && (a <? 16) then Some (a * a) else None in
  holds m 10 [100; 121; 144; 169; 196; 225] /\
  option_map fst (simd_for_each 4 true (fun s v => (s ++ [v], map Z.succ v)) 6 10 16 [] m) = Some [[100; 121; 144; 169]; [196]; [225]].
Proof.
  cbn zeta. split; [|reflexivity]. intros i Hi. cbn [length] in Hi. do 6 (destruct i as [|i]; [reflexivity|]). lia.
Qed.

(** C28: the same for simd_for_each_n(first, count, f). *)
Theorem C28_for_each_n :
  forall (A S : Type) w mut (f : S -> list A -> S * list A) (m : memory A) first xs s,
    (1 <= w)%nat -> (forall s v, length (snd (f s v)) = length v) -> holds m first xs -> Z.of_nat (length xs) < 2 ^ 63 ->
    exists m', simd_for_each_n w mut f (length xs) first (Z.of_nat (length xs)) s m =
                 Some (fst (run_calls f s (blocks w xs)), m') /\
      if mut : bool then replaced m first (concat (snd (run_calls f s (blocks w xs)))) m' else m' = m.
Proof. exact AlgorithmsMain.C28_for_each_n_main. Qed.
Print Assumptions C28_for_each_n.

Example C28_for_each_n_ex :
  let m : memory Z := fun a => if (10 <=? a) && (a <? 16) then Some (a * a) else None in
  option_map fst (simd_for_each_n 4 false (fun s v => (s ++ [v], v)) 6 10 6 [] m) = Some [[100; 121; 144; 169]; [196]; [225]].
Proof.
  reflexivity.
Qed.

(** C28: if f changes every element of its argument by a function g, the range holds g of the old elements
afterwards, for both functions. *)
Theorem C28_elementwise :
  forall (A : Type) w (g : A -> A) (m : memory A) first xs, (1 <= w)%nat -> holds m first xs -> Z.of_nat (length xs) < 2 ^ 63 ->
    (exists m', simd_for_each w true (fun s v => (s, map g v)) (length xs) first (first + Z.of_nat (length xs)) tt m = Some (tt, m') /\
       replaced m first (map g xs) m') /\
    (exists m', simd_for_each_n w true (fun s v => (s, map g v)) (length xs) first (Z.of_nat (length xs)) tt m = Some (tt, m') /\
       replaced m first (map g xs) m').
Proof. exact AlgorithmsMain.C28_elementwise_main. Qed.
Print Assumptions C28_elementwise.

Example C28_elementwise_ex :
  let m : memory Z := fun a => if (0 <=? a) && (a <? 5) then Some a else None in
  option_map (fun r => map (snd r) [-1; 0; 1; 2; 3; 4; 5]) (simd_for_each 2 true (fun s v => (s, map Z.succ v)) 5 0 5 tt m) =
    Some [None; Some 1; Some 2; Some 3; Some 4; Some 5; None].
Proof.
  reflexivity.
Qed.

(** C28: for pointers into an array, simd_for_each is well defined (and does the above) when the array has at least
V::Size elements before the end of the range. *)
Theorem C28_pointers :
  forall (A S : Type) w mut (f : S -> list A -> S * list A) (m : memory A) lo hi first n s,
    lo <= first + Z.of_nat n - Z.of_nat w -> first + Z.of_nat n < hi + Z.of_nat w -> first + Z.of_nat n <= hi ->
    simd_for_each_ptr w mut f lo hi n first (first + Z.of_nat n) s m = simd_for_each w mut f n first (first + Z.of_nat n) s m.
Proof. exact AlgorithmsMain.C28_pointers_main. Qed.
Print Assumptions C28_pointers.

Example C28_pointers_ex :
  let m : memory Z := fun a => if (10 <=? a) && (a <? 16) then Some (a * a) else None in
  option_map fst (simd_for_each_ptr 4 false (fun s v => (s ++ [v], v)) 10 16 6 10 16 [] m) = Some [[100; 121; 144; 169]; [196]; [225]].
Proof.
  reflexivity.
Qed.

(** Finding: "simd_for_each is well defined for every pointer range" is false: for every array of fewer than
V::Size elements, even an empty one, lastV is computed by moving a pointer before the beginning of the
array. *)
Theorem C28_pointers_refuted :
  forall (A S : Type) w mut (f : S -> list A -> S * list A) (m : memory A) first n s, (n < w)%nat ->
    simd_for_each_ptr w mut f first (first + Z.of_nat n) n first (first + Z.of_nat n) s m = None.
Proof. exact AlgorithmsMain.C28_pointers_refuted_main. Qed.
Print Assumptions C28_pointers_refuted.

Example C28_pointers_refuted_ex :
  (3 < 4)%nat.
Proof.
  lia.
Qed.

(** C43: callWithValuesSorted on a sorted vector of an integer type calls f exactly once with every value that
occurs in the vector, and with no other value, in the order of the vector. *)
Theorem C43_values_of_sorted :
  forall e (xs : list (elt e)), is_integer e = true -> sorted_spec (e_le e) xs ->
    let called := call_with_values_sorted (entry_ne e) xs in
    NoDup called /\ (forall v, In v called <-> In v xs) /\ sorted_spec (e_le e) called.
Proof. exact AlgorithmsMain.C43_values_of_sorted_main. Qed.
Print Assumptions C43_values_of_sorted.

Example C43_values_of_sorted_ex :
  map uval (call_with_values_sorted (entry_ne Short) (map (mkw 2) [-5; -5; 3; 7; 7; 7; 9; 12])) = [65531; 3; 7; 9; 12].
Proof.
  vm_compute. reflexivity.
Qed.

(** C43: for every vector, also unsorted, and for the floating-point types, callWithValuesSorted calls f with
the first entry and with every entry that differs from its left neighbour (a NaN differs from everything). *)
Theorem C43_values :
  forall e (xs : list (elt e)),
    call_with_values_sorted (entry_ne e) xs =
      run_heads (fun a b => if is_integer e then uval a =? uval b else negb (is_NaN a) && negb (is_NaN b) && (fvalue a =? fvalue b)) xs.
Proof. exact AlgorithmsMain.C43_values_main. Qed.
Print Assumptions C43_values.

Example C43_values_ex :
  map uval (call_with_values_sorted (entry_ne Float) [a_nan 4; a_nan 4; pos_zero 4; neg_zero 4]) = map uval [a_nan 4; a_nan 4; pos_zero 4].
Proof.
  vm_compute. reflexivity.
Qed.

(** C43: apply(f) on a native vector or a SimdArray of any size calls f once per entry, in order, and returns
the vector of the results. *)
Theorem C43_apply :
  forall (A S : Type) (zero : A) (f : S -> A -> S * A) native n t s, widths_ok native -> wf native n t ->
    fst (apply zero f t s) = fst (run_calls f s (to_list t)) /\
    to_list (snd (apply zero f t s)) = snd (run_calls f s (to_list t)) /\ wf native n (snd (apply zero f t s)).
Proof. exact AlgorithmsMain.C43_apply_main. Qed.
Print Assumptions C43_apply.

Example C43_apply_ex :
  wf (sse_native 2) 11 (Node (Leaf [1; 2; 3; 4; 5; 6; 7; 8]) (Node (Node (Leaf [9]) (Leaf [10])) (Leaf [11]))) /\
  run_calls (fun s x => (s + x, s)) 0 [1; 2; 3; 4] = (10, [0; 1; 3; 6]).
Proof.
  split; [repeat constructor|reflexivity].
Qed.

(** C43: apply(f, mask) calls f once per entry selected by the mask, in order; the other entries keep their
value (all element types and sizes of an SSE build). *)
Theorem C43_apply_masked :
  forall (S : Type) e (f : S -> elt e -> S * elt e) n t k s,
    wf (sse_native (esize e)) n t -> wf (sse_native (esize e)) n k ->
    exists t', apply_mask (w0 (esize e)) f (esize e) t k s = Some (fst (run_selected f s (to_list k) (to_list t)), t') /\
      to_list t' = snd (run_selected f s (to_list k) (to_list t)) /\ wf (sse_native (esize e)) n t'.
Proof. exact AlgorithmsMain.C43_apply_masked_main. Qed.
Print Assumptions C43_apply_masked.

Example C43_apply_masked_ex :
  run_selected (fun s x => (s + 1, x * 10)) 0 [true; false; true] [1; 2; 3] = (2, [10; 2; 30]).
Proof.
  reflexivity.
Qed.

(** C43: call(f) and call(f, mask) of a native vector call f with all resp. the selected entries, in order. *)
Theorem C43_call :
  forall (A : Type) (zero : A) xs ks w, (w = 2 \/ w = 4 \/ w = 8)%nat -> length xs = (16 / w)%nat -> length ks = length xs ->
    v_call zero xs = xs /\
    v_call_mask zero xs (m_to_int w (mask_reg w ks)) = Some (map fst (filter snd (combine xs ks))).
Proof. exact AlgorithmsMain.C43_call_main. Qed.
Print Assumptions C43_call.

Example C43_call_ex :
  v_call_mask 0 [1; 2; 3; 4] (m_to_int 4 (mask_reg 4 [false; true; false; true])) = Some [2; 4].
Proof.
  vm_compute. reflexivity.
Qed.

(** C43: fill(f) sets entry i to the result of the i-th call, which gets the argument i. *)
Theorem C43_fill :
  forall (A S : Type) (g : S -> Z -> S * A) xs s, v_fill g xs s = run_calls g s (tab (length xs) (fun i => i)).
Proof. exact AlgorithmsMain.C43_fill_main. Qed.
Print Assumptions C43_fill.

Example C43_fill_ex :
  v_fill (fun s i => (s + 1, (s, i))) [(0, 0); (0, 0); (0, 0)] 7 = (10, [(7, 0); (8, 1); (9, 2)]).
Proof.
  reflexivity.
Qed.
