(** Properties of SimdArray and SimdMaskArray for every size, every set of native widths and every element type: C01-C10, C12-C17 *)
From Coq Require Import ZArith List Bool Lia Permutation.
From Verif.Spec Require Import Seq NativeSpec MaskSpec OperandSpec.
From Verif.Model Require Import SplitSize SimdArray Mem SimdArrayOps ScalarVec.
From Verif.Proof Require ScalarVecP.
Import ListNotations.
Local Open Scope Z_scope.
From Verif.Proof Require SimdArrayMain.

(** C01: NextPowerOfTwo<n> in size_t arithmetic: for every 1 <= n <= 2^63 the recursion stops and
    yields the smallest power of two that is not below n. *)
Theorem C01_next_power_of_two :
  forall n, 1 <= n <= 2 ^ 63 ->
    exists fuel r k, npot64 fuel n = Some r /\ r = 2 ^ k /\ 0 <= k /\ n <= r /\
      (forall j, 0 <= j -> n <= 2 ^ j -> r <= 2 ^ j).
Proof. exact SimdArrayMain.C01_next_power_of_two_main. Qed.
Print Assumptions C01_next_power_of_two.

Example C01_next_power_of_two_ex : 1 <= 1000003 <= 2 ^ 63 /\ npot64 30 1000003 = Some (2 ^ 20).
Proof. vm_compute. intuition discriminate. Qed.

(** C01: left_size is a power of two, the right part is non-empty, not larger than the left part, and
    both add up to N. *)
Theorem C01_split_sizes :
  forall n, (2 <= n)%nat ->
    (exists k, left_size n = Nat.pow 2 k)%nat /\ (1 <= right_size n)%nat /\
    (right_size n <= left_size n)%nat /\ (left_size n + right_size n = n)%nat.
Proof. exact SimdArrayMain.C01_split_sizes_main. Qed.
Print Assumptions C01_split_sizes.

Example C01_split_sizes_ex : (left_size 21, right_size 21) = (16, 5)%nat.
Proof. reflexivity. Qed.

(** C01: the division stops: an object of every size N exists and has exactly N elements. *)
Theorem C01_layout_exists :
  forall (A : Type) native n (a : A), widths_ok native -> (1 <= n)%nat ->
    exists t, wf native n t /\ to_list t = repeat a n /\ size t = n.
Proof. exact SimdArrayMain.C01_layout_exists_main. Qed.
Print Assumptions C01_layout_exists.

Example C01_layout_exists_ex : widths_ok scalar_native /\ (1 <= 12)%nat.
Proof. split; [exact ScalarVecP.scalar_widths|lia]. Qed.

(** C02: any elementwise operation with any number of arguments.  An argument is a SimdArray (of any
    element type, i.e. with its own set of native widths), a segment of a native vector or a scalar. *)
Theorem C02_operation :
  forall (A B : Type) native (zero : A) (f : list A -> B) n (args : list (operand A)),
    widths_ok native -> (1 <= n)%nat -> Forall (operand_ok n) args ->
    wf native n (from_operation native zero f n args) /\
    to_list (from_operation native zero f n args) =
      tab n (fun i => f (map (fun o => operand_at zero o i) args)).
Proof. exact SimdArrayMain.C02_operation_main. Qed.
Print Assumptions C02_operation.

Example C02_operation_ex :
  Forall (operand_ok 3) [OTree (Node (Node (Leaf [1]) (Leaf [2])) (Leaf [3])); OScalar 7] /\
  to_list (from_operation scalar_native 0 (fun l => fold_right Z.add 0 l) 3
     [OTree (Node (Node (Leaf [1]) (Leaf [2])) (Leaf [3])); OScalar 7]) = [8; 9; 10].
Proof.
  split; [|reflexivity].
  constructor; [|constructor; [exact I|constructor]].
  exists scalar_native. split; [exact ScalarVecP.scalar_widths|].
  repeat (constructor; try reflexivity).
Qed.

Theorem C02_unary :
  forall (A B : Type) native (f : A -> B) n (t : sa A), wf native n t ->
    wf native n (map_sa f t) /\ to_list (map_sa f t) = map f (to_list t).
Proof. exact SimdArrayMain.C02_unary_main. Qed.
Print Assumptions C02_unary.

Example C02_unary_ex : wf scalar_native 2 (Node (Leaf [1]) (Leaf [2])).
Proof. repeat (constructor; try reflexivity). Qed.

(** C02: binary operators, compound assignments and comparisons. *)
Theorem C02_binary :
  forall (A B C : Type) native (f : A -> B -> C) n (t : sa A) (x : sa B), widths_ok native ->
    wf native n t -> wf native n x ->
    exists r, zip_sa f t x = Some r /\ wf native n r /\ to_list r = map2 f (to_list t) (to_list x).
Proof. exact SimdArrayMain.C02_binary_main. Qed.
Print Assumptions C02_binary.

Example C02_binary_ex :
  zip_sa Z.ltb (Node (Leaf [1]) (Leaf [2])) (Node (Leaf [5]) (Leaf [0])) = Some (Node (Leaf [true]) (Leaf [false])).
Proof. reflexivity. Qed.

(** C03: load reads exactly mem[base .. base+N), element i being mem[base+i]. *)
Theorem C03_load :
  forall (A : Type) native n (m : memory A) base (mem : Z -> A), widths_ok native -> (1 <= n)%nat ->
    (forall i, 0 <= i < Z.of_nat n -> m (base + i) = Some (mem i)) ->
    exists t, load native m base n = Some t /\ wf native n t /\ to_list t = tab n mem.
Proof. exact SimdArrayMain.C03_load_main. Qed.
Print Assumptions C03_load.

Example C03_load_ex : option_map to_list (load scalar_native (fun a => if (0 <=? a) && (a <? 8) then Some (a * a) else None) 2 5)
  = Some [4; 9; 16; 25; 36].
Proof. reflexivity. Qed.

(** C03: nothing short of N elements is enough (an unmapped address makes the load undefined). *)
Theorem C03_load_out_of_bounds :
  forall (A : Type) native n (m : memory A) base i, widths_ok native -> (1 <= n)%nat ->
    0 <= i < Z.of_nat n -> m (base + i) = None -> load native m base n = None.
Proof. exact SimdArrayMain.C03_load_out_of_bounds_main. Qed.
Print Assumptions C03_load_out_of_bounds.

Example C03_load_out_of_bounds_ex : (fun a => if (0 <=? a) && (a <? 8) then Some a else None) (4 + 4) = None.
Proof. reflexivity. Qed.

(** C03: store writes exactly mem[base .. base+N). *)
Theorem C03_store :
  forall (A : Type) native n (t : sa A) (m : memory A) base d, widths_ok native -> wf native n t ->
    (forall i, 0 <= i < Z.of_nat n -> exists v, m (base + i) = Some v) ->
    exists m', store t m base = Some m' /\
      (forall i, 0 <= i < Z.of_nat n -> m' (base + i) = Some (znth d (to_list t) i)) /\
      (forall a, a < base \/ base + Z.of_nat n <= a -> m' a = m a).
Proof. exact SimdArrayMain.C03_store_main. Qed.
Print Assumptions C03_store.

Example C03_store_ex :
  option_map (fun m => map m [0; 1; 2; 3; 4]) (store (Node (Node (Leaf [7]) (Leaf [8])) (Leaf [9])) (fun a => if a <? 5 then Some 0 else None) 1)
  = Some [Some 0; Some 7; Some 8; Some 9; Some 0].
Proof. reflexivity. Qed.

(** C03: round trip. *)
Theorem C03_store_load :
  forall (A : Type) native n (t : sa A) (m m' : memory A) base, widths_ok native -> wf native n t ->
    store t m base = Some m' -> exists t', load native m' base n = Some t' /\ to_list t' = to_list t.
Proof. exact SimdArrayMain.C03_store_load_main. Qed.
Print Assumptions C03_store_load.

Example C03_store_load_ex : store (Node (Leaf [7]) (Leaf [8])) (fun a => Some 0) 1 <> None.
Proof. discriminate. Qed.

Theorem C03_subscript_read :
  forall (A : Type) native n (t : sa A) i d, widths_ok native -> wf native n t ->
    (0 <= i < Z.of_nat n -> get d t i = Some (znth d (to_list t) i)) /\
    (~ 0 <= i < Z.of_nat n -> get d t i = None).
Proof. exact SimdArrayMain.C03_subscript_read_main. Qed.
Print Assumptions C03_subscript_read.

Example C03_subscript_read_ex : get 0 (Node (Node (Leaf [7]) (Leaf [8])) (Leaf [9])) 2 = Some 9.
Proof. reflexivity. Qed.

(** C03: a[i] = v changes element i and no other. *)
Theorem C03_subscript_write :
  forall (A : Type) native n (t : sa A) i v d, widths_ok native -> wf native n t ->
    0 <= i < Z.of_nat n ->
    wf native n (set t i v) /\
    forall z, znth d (to_list (set t i v)) z = if z =? i then v else znth d (to_list t) z.
Proof. exact SimdArrayMain.C03_subscript_write_main. Qed.
Print Assumptions C03_subscript_write.

Example C03_subscript_write_ex : to_list (set (Node (Node (Leaf [7]) (Leaf [8])) (Leaf [9])) 2 1) = [7; 8; 1].
Proof. reflexivity. Qed.

(** C04: generate(f): element i is f(i). *)
Theorem C04_generate :
  forall (A : Type) native n (f : Z -> A), widths_ok native -> (1 <= n)%nat ->
    wf native n (generate native n f) /\ to_list (generate native n f) = tab n f.
Proof. exact SimdArrayMain.C04_generate_main. Qed.
Print Assumptions C04_generate.

Example C04_generate_ex : to_list (generate scalar_native 5 (fun i => i * i)) = [0; 1; 4; 9; 16].
Proof. reflexivity. Qed.

(** C05 for sizes that are a power of two (equal halves at every level): every amount. *)
Theorem C05_shifted_power_of_two :
  forall (A : Type) native (ops : native_ops A) zero j (t : sa A) k,
    widths_ok native -> native_moves_ok native zero ops -> wf native (Nat.pow 2 j) t ->
    exists r, shifted native ops zero t k = Some r /\ wf native (Nat.pow 2 j) r /\
      to_list r = shift_spec zero (to_list t) k.
Proof. exact SimdArrayMain.C05_shifted_power_of_two_main. Qed.
Print Assumptions C05_shifted_power_of_two.

Example C05_shifted_power_of_two_ex :
  native_moves_ok scalar_native 0 (scalar_ops 0) /\
  option_map to_list (shifted scalar_native (scalar_ops 0) 0 (generate scalar_native 8 (fun i => i + 1)) (-3))
  = Some [0; 0; 0; 1; 2; 3; 4; 5].
Proof. split; [exact (ScalarVecP.scalar_moves Z 0)|reflexivity]. Qed.

(** C05 for every size: amounts 0 and at least as large as the left part.  Missing: smaller amounts for
    sizes with unequal halves, where the property is false (next theorem) or the code undefined. *)
Theorem C05_shifted_partial :
  forall (A : Type) native (ops : native_ops A) zero n (t : sa A) k,
    widths_ok native -> native_moves_ok native zero ops -> wf native n t ->
    native n = true \/ k = 0 \/ Z.of_nat (left_size n) <= Z.abs k ->
    exists r, shifted native ops zero t k = Some r /\ wf native n r /\
      to_list r = shift_spec zero (to_list t) k.
Proof. exact SimdArrayMain.C05_shifted_partial_main. Qed.
Print Assumptions C05_shifted_partial.

Example C05_shifted_partial_ex :
  Z.of_nat (left_size 12) <= Z.abs (-9) /\
  option_map to_list (shifted scalar_native (scalar_ops 0) 0 (generate scalar_native 12 (fun i => i + 1)) (-9))
  = Some [0; 0; 0; 0; 0; 0; 0; 0; 0; 1; 2; 3].
Proof. split; [vm_compute; discriminate|reflexivity]. Qed.

(** Finding: for EVERY size whose halves differ and EVERY amount -left < k < 0, shifted(k) is wrong for
    some array (elements of the left half are lost or taken from the wrong end). *)
Theorem C05_shifted_refuted :
  forall (A : Type) native (ops : native_ops A) zero one n k,
    widths_ok native -> native_moves_ok native zero ops -> one <> zero ->
    native n = false -> (1 <= n)%nat -> left_size n <> right_size n -> - Z.of_nat (left_size n) < k < 0 ->
    exists t, wf native n t /\
      forall r, shifted native ops zero t k = Some r -> to_list r <> shift_spec zero (to_list t) k.
Proof. exact SimdArrayMain.C05_shifted_refuted_main. Qed.
Print Assumptions C05_shifted_refuted.

Example C05_shifted_refuted_ex :
  scalar_native 3 = false /\ left_size 3 <> right_size 3 /\ - Z.of_nat (left_size 3) < -1 < 0 /\
  option_map to_list (shifted scalar_native (scalar_ops 0) 0 (generate scalar_native 3 (fun i => i + 1)) (-1))
  = Some [0; 1; 1].
Proof. vm_compute. intuition discriminate. Qed.

(** C06 for native and composite sizes, -N <= k <= N, and shiftIn of the same size. *)
Theorem C06_shifted_in :
  forall (A : Type) native (ops : native_ops A) zero n (t s : sa A) k,
    widths_ok native -> native_moves_ok native zero ops -> wf native n t -> wf native n s ->
    - Z.of_nat n <= k <= Z.of_nat n ->
    exists r, shifted_in native ops zero t k s = Some r /\ wf native n r /\
      to_list r = shiftin_spec zero (to_list t) (to_list s) k.
Proof. exact SimdArrayMain.C06_shifted_in_main. Qed.
Print Assumptions C06_shifted_in.

Example C06_shifted_in_ex :
  option_map to_list (shifted_in scalar_native (scalar_ops 0) 0 (generate scalar_native 6 (fun i => i + 1)) (-2)
     (generate scalar_native 6 (fun i => i + 11))) = Some [15; 16; 1; 2; 3; 4].
Proof. reflexivity. Qed.

(** C06 for composite sizes: every amount above -2N. *)
Theorem C06_shifted_in_far :
  forall (A : Type) native (ops : native_ops A) zero n (t s : sa A) k,
    widths_ok native -> native_moves_ok native zero ops -> wf native n t -> wf native n s ->
    native n = false -> -2 * Z.of_nat n < k ->
    exists r, shifted_in native ops zero t k s = Some r /\ wf native n r /\
      to_list r = shiftin_spec zero (to_list t) (to_list s) k.
Proof. exact SimdArrayMain.C06_shifted_in_far_main. Qed.
Print Assumptions C06_shifted_in_far.

Example C06_shifted_in_far_ex :
  option_map to_list (shifted_in scalar_native (scalar_ops 0) 0 (generate scalar_native 4 (fun i => i + 1)) 6
     (generate scalar_native 4 (fun i => i + 11))) = Some [13; 14; 0; 0].
Proof. reflexivity. Qed.

(** Finding: the overload for equal halves sends every amount <= -2N into the branch for small positive
    amounts, and the recursion ends in native shifts by more than the native width, for which the
    native functions are not specified, instead of returning zeros. *)
Theorem C06_shifted_in_refuted :
  forall (A : Type) native (ops : native_ops A) zero n (t s : sa A) k,
    widths_ok native -> wf native n t -> wf native n s -> native n = false ->
    left_size n = right_size n -> k <= -2 * Z.of_nat n -> shifted_in native ops zero t k s = None.
Proof. exact SimdArrayMain.C06_shifted_in_refuted_main. Qed.
Print Assumptions C06_shifted_in_refuted.

Example C06_shifted_in_refuted_ex : scalar_native 8 = false /\ left_size 8 = right_size 8 /\ -16 <= -2 * Z.of_nat 8.
Proof. vm_compute. intuition discriminate. Qed.

(** C07: every size and every amount. *)
Theorem C07_rotated :
  forall (A : Type) native (ops : native_ops A) zero n (t : sa A) k,
    widths_ok native -> native_moves_ok native zero ops -> wf native n t ->
    exists r, rotated native ops zero t k = Some r /\ wf native n r /\
      to_list r = rotate_spec zero (to_list t) k.
Proof. exact SimdArrayMain.C07_rotated_main. Qed.
Print Assumptions C07_rotated.

Example C07_rotated_ex :
  option_map to_list (rotated scalar_native (scalar_ops 0) 0 (generate scalar_native 11 (fun i => i)) (-14))
  = Some [8; 9; 10; 0; 1; 2; 3; 4; 5; 6; 7].
Proof. reflexivity. Qed.

Theorem C08_reversed :
  forall (A : Type) native (ops : native_ops A) zero n (t : sa A),
    widths_ok native -> native_moves_ok native zero ops -> wf native n t ->
    exists r, reversed native ops zero t = Some r /\ wf native n r /\ to_list r = rev (to_list t).
Proof. exact SimdArrayMain.C08_reversed_main. Qed.
Print Assumptions C08_reversed.

Example C08_reversed_ex :
  option_map to_list (reversed scalar_native (scalar_ops 0) 0 (generate scalar_native 7 (fun i => i)))
  = Some [6; 5; 4; 3; 2; 1; 0].
Proof. reflexivity. Qed.

Theorem C09_interleave :
  forall (A : Type) native (ops : native_ops A) zero n (t x : sa A),
    widths_ok native -> native_moves_ok native zero ops -> wf native n t -> wf native n x ->
    exists lo hi, interleave_low native ops zero t x = Some lo /\ interleave_high native ops zero t x = Some hi /\
      wf native n lo /\ wf native n hi /\ to_list lo ++ to_list hi = interleave_spec (to_list t) (to_list x).
Proof. exact SimdArrayMain.C09_interleave_main. Qed.
Print Assumptions C09_interleave.

Example C09_interleave_ex :
  let t := generate scalar_native 3 (fun i => i) in let x := generate scalar_native 3 (fun i => i + 10) in
  (option_map to_list (interleave_low scalar_native (scalar_ops 0) 0 t x),
   option_map to_list (interleave_high scalar_native (scalar_ops 0) 0 t x)) = (Some [0; 10; 1], Some [11; 2; 12]).
Proof. reflexivity. Qed.

(** C10: every size, for every total order for which the native sorted() is correct (see
    SseSortProps for the native networks).  [top] is the padding value (max or infinity). *)
Theorem C10_sorted :
  forall (A : Type) native (ops : native_ops A) zero (le : A -> A -> bool) mn mx top n (t : sa A),
    widths_ok native -> native_moves_ok native zero ops -> native_sorted_ok native le ops ->
    total_order le -> (forall x, le x top = true) ->
    (forall x y, mn x y = if le x y then x else y) -> (forall x y, mx x y = if le x y then y else x) ->
    wf native n t ->
    exists r, sorted native ops zero mn mx top t = Some r /\ wf native n r /\
      sorted_spec le (to_list r) /\ Permutation (to_list r) (to_list t).
Proof. exact SimdArrayMain.C10_sorted_main. Qed.
Print Assumptions C10_sorted.

Example C10_sorted_ex :
  native_sorted_ok scalar_native Z.leb (scalar_ops 0) /\
  option_map to_list (sorted scalar_native (scalar_ops 0) 0 Z.min Z.max 255
     (generate scalar_native 7 (fun i => (i * 5 + 3) mod 7))) = Some [0; 1; 2; 3; 4; 5; 6].
Proof. split; [exact (ScalarVecP.scalar_sorted Z 0 Z.leb)|reflexivity]. Qed.

Theorem C12_partial_sum :
  forall (A : Type) native (ops : native_ops A) zero add n (t : sa A),
    widths_ok native -> native_partial_sum_ok native add ops -> (forall a b, add a b = add b a) ->
    wf native n t ->
    exists r, partial_sum ops zero add t = Some r /\ wf native n r /\
      to_list r = partial_sum_spec add (to_list t).
Proof. exact SimdArrayMain.C12_partial_sum_main. Qed.
Print Assumptions C12_partial_sum.

Example C12_partial_sum_ex :
  option_map to_list (partial_sum (scalar_ops 0) 0 Z.add (generate scalar_native 7 (fun i => i + 1)))
  = Some [1; 3; 6; 10; 15; 21; 28].
Proof. reflexivity. Qed.

(** C13: min(), max(), sum(), product() of arrays of every size. *)
Theorem C13_reduce :
  forall (A : Type) native (f : A -> A -> A) red n (t : sa A),
    widths_ok native -> native_reduce_ok native f red ->
    (forall x y z, f (f x y) z = f x (f y z)) -> (forall x y, f x y = f y x) -> wf native n t ->
    exists v, reduce red f t = Some v /\ reduce_spec f (to_list t) = Some v.
Proof. exact SimdArrayMain.C13_reduce_main. Qed.
Print Assumptions C13_reduce.

Example C13_reduce_ex :
  native_reduce_ok scalar_native Z.max (scalar_reduce 0) /\
  reduce (scalar_reduce 0) Z.max (generate scalar_native 7 (fun i => (i * 5 + 3) mod 7)) = Some 6.
Proof. split; [exact (ScalarVecP.scalar_reduce_ok Z 0 Z.max)|reflexivity]. Qed.

(** C14: masked reductions with at least one selected element. *)
Theorem C14_reduce_masked :
  forall (A : Type) native K (f : A -> A -> A) mred n (t : sa A) (k : sa bool),
    widths_ok native -> native_masks_ok native K -> native_reduce_masked_ok native f mred ->
    (forall x y z, f (f x y) z = f x (f y z)) -> wf native n t -> wf native n k ->
    (exists i, znth false (to_list k) i = true) ->
    exists v, reduce_masked K mred f t k = Some v /\
      reduce_spec f (select_spec (to_list k) (to_list t)) = Some v.
Proof. exact SimdArrayMain.C14_reduce_masked_main. Qed.
Print Assumptions C14_reduce_masked.

Example C14_reduce_masked_ex :
  reduce_masked scalar_mask_ops (scalar_minmax_masked 0) Z.max (generate scalar_native 5 (fun i => i))
     (generate scalar_native 5 (fun i => Z.even i && (i <? 4))) = Some 2.
Proof. reflexivity. Qed.

(** C15: where(k) | x = v and x(k) = v. *)
Theorem C15_masked_assign :
  forall (A : Type) native nassign n (x v : sa A) (k : sa bool),
    widths_ok native -> native_assign_ok native nassign ->
    wf native n x -> wf native n v -> wf native n k ->
    exists r, assign nassign x v k = Some r /\ wf native n r /\
      to_list r = masked_update_spec (to_list k) (to_list v) (to_list x).
Proof. exact SimdArrayMain.C15_masked_assign_main. Qed.
Print Assumptions C15_masked_assign.

Example C15_masked_assign_ex :
  native_assign_ok scalar_native (@scalar_assign Z) /\
  option_map to_list (assign scalar_assign (generate scalar_native 5 (fun i => i)) (generate scalar_native 5 (fun i => 100))
     (generate scalar_native 5 Z.even)) = Some [100; 1; 100; 3; 100].
Proof. split; [exact (ScalarVecP.scalar_assign_ok Z)|reflexivity]. Qed.

(** C15: iif(k, a, b) takes the element of a where the mask is true and the element of b where it is false. *)
Theorem C15_iif :
  forall (A : Type) native nassign n (k : sa bool) (a b : sa A),
    widths_ok native -> native_assign_ok native nassign ->
    wf native n k -> wf native n a -> wf native n b ->
    exists r, iif nassign k a b = Some r /\ wf native n r /\
      to_list r = map3 (fun (m : bool) x y => if m then x else y) (to_list k) (to_list a) (to_list b).
Proof. exact SimdArrayMain.C15_iif_main. Qed.
Print Assumptions C15_iif.

Example C15_iif_ex :
  option_map to_list (iif scalar_assign (generate scalar_native 5 Z.even) (generate scalar_native 5 (fun i => i)) (generate scalar_native 5 (fun i => 100)))
   = Some [0; 100; 2; 100; 4].
Proof. reflexivity. Qed.

(** C15: where(k) | x op= y. *)
Theorem C15_masked_op_assign :
  forall (A : Type) native nassign (f : A -> A -> A) n (x y : sa A) (k : sa bool),
    widths_ok native -> native_assign_ok native nassign ->
    wf native n x -> wf native n y -> wf native n k ->
    exists r, masked_op_assign nassign f x y k = Some r /\ wf native n r /\
      to_list r = map3 (fun (b : bool) a c => if b then f a c else a) (to_list k) (to_list x) (to_list y).
Proof. exact SimdArrayMain.C15_masked_op_assign_main. Qed.
Print Assumptions C15_masked_op_assign.

Example C15_masked_op_assign_ex :
  option_map to_list (masked_op_assign scalar_assign Z.mul (generate scalar_native 5 (fun i => i)) (generate scalar_native 5 (fun i => 7))
     (generate scalar_native 5 Z.even)) = Some [0; 1; 14; 3; 28].
Proof. reflexivity. Qed.

(** C15: where(k) | ++x (and --x with subtraction).  The unselected elements get [a + 0]; the hypothesis
    holds for integers, and for floats unless a = -0.0. *)
Theorem C15_masked_increment :
  forall (A : Type) native zero nszi add (one : A) n (x : sa A) (k : sa bool),
    widths_ok native -> native_zero_inverted_ok native zero nszi -> (forall a, add a zero = a) ->
    wf native n x -> wf native n k ->
    exists r, masked_increment nszi add one x k = Some r /\ wf native n r /\
      to_list r = map2 (fun (b : bool) a => if b then add a one else a) (to_list k) (to_list x).
Proof. exact SimdArrayMain.C15_masked_increment_main. Qed.
Print Assumptions C15_masked_increment.

Example C15_masked_increment_ex :
  option_map to_list (masked_increment (scalar_zero_inverted 0) Z.sub 1 (generate scalar_native 5 (fun i => i))
     (generate scalar_native 5 Z.even)) = Some [-1; 1; 1; 3; 3].
Proof. reflexivity. Qed.

(** C16: isFull, isEmpty, isNotEmpty, isMix, count, firstOne. *)
Theorem C16_mask_queries :
  forall native K n (m : sa bool), widths_ok native -> native_masks_ok native K -> wf native n m ->
    (is_full K m = true <-> forall b, In b (to_list m) -> b = true) /\
    (is_empty K m = true <-> forall b, In b (to_list m) -> b = false) /\
    (is_not_empty K m = true <-> exists b, In b (to_list m) /\ b = true) /\
    (is_mix K m = true <-> In true (to_list m) /\ In false (to_list m)) /\
    count K m = count_spec (to_list m) /\
    (In true (to_list m) -> first_one_spec (to_list m) (first_one K m)).
Proof. exact SimdArrayMain.C16_mask_queries_main. Qed.
Print Assumptions C16_mask_queries.

Example C16_mask_queries_ex :
  native_masks_ok scalar_native scalar_mask_ops /\
  let m := generate scalar_native 5 (fun i => 2 <=? i) in
  (is_full scalar_mask_ops m, is_empty scalar_mask_ops m, is_mix scalar_mask_ops m, count scalar_mask_ops m, first_one scalar_mask_ops m)
  = (false, false, true, 3, 2).
Proof. split; [exact ScalarVecP.scalar_masks|reflexivity]. Qed.

(** C16: toInt() for up to 31 elements: bit i is m[i]. *)
Theorem C16_mask_to_int :
  forall native K n (m : sa bool), widths_ok native -> native_masks_ok native K -> wf native n m ->
    (n <= 31)%nat ->
    exists v, to_int K m = Some v /\ 0 <= v < 2 ^ Z.of_nat n /\
      forall i, 0 <= i < Z.of_nat n -> Z.testbit v i = znth false (to_list m) i.
Proof. exact SimdArrayMain.C16_mask_to_int_main. Qed.
Print Assumptions C16_mask_to_int.

Example C16_mask_to_int_ex : to_int scalar_mask_ops (generate scalar_native 5 (fun i => 2 <=? i)) = Some 28.
Proof. reflexivity. Qed.

(** Finding: toInt() of every mask with more than 32 elements shifts a 32-bit int by 32 or more bits
    (undefined behaviour). *)
Theorem C16_mask_to_int_refuted :
  forall native K n (m : sa bool), widths_ok native -> wf native n m -> (32 < n)%nat -> native n = false ->
    to_int K m = None.
Proof. exact SimdArrayMain.C16_mask_to_int_refuted_main. Qed.
Print Assumptions C16_mask_to_int_refuted.

Example C16_mask_to_int_refuted_ex : (32 < 40)%nat /\ scalar_native 40 = false.
Proof. split; [lia|reflexivity]. Qed.

(** C16: m == m' and m != m' compare all elements. *)
Theorem C16_mask_equality :
  forall native K n (m m' : sa bool), widths_ok native -> native_masks_ok native K ->
    wf native n m -> wf native n m' ->
    exists b, mask_eq K m m' = Some b /\ mask_neq K m m' = Some (negb b) /\
      (b = true <-> to_list m = to_list m').
Proof. exact SimdArrayMain.C16_mask_equality_main. Qed.
Print Assumptions C16_mask_equality.

Example C16_mask_equality_ex :
  mask_eq scalar_mask_ops (generate scalar_native 5 (fun i => 2 <=? i)) (generate scalar_native 5 (fun i => 3 <=? i)) = Some false.
Proof. reflexivity. Qed.

(** C17: SimdMaskArray::shifted for every int amount (sizes up to 2^31). *)
Theorem C17_mask_shifted :
  forall native n (m : sa bool) k, widths_ok native -> wf native n m ->
    Z.of_nat n <= 2 ^ 31 -> - 2 ^ 31 <= k < 2 ^ 31 ->
    exists r, mask_shifted native m k = Some r /\ wf native n r /\ to_list r = shift_spec false (to_list m) k.
Proof. exact SimdArrayMain.C17_mask_shifted_main. Qed.
Print Assumptions C17_mask_shifted.

Example C17_mask_shifted_ex :
  option_map to_list (mask_shifted scalar_native (generate scalar_native 5 (fun i => 2 <=? i)) (-1)) = Some [false; false; false; true; true].
Proof. reflexivity. Qed.

(** C17: generate(f)[i] is f(i); m[i] reads element i. *)
Theorem C17_mask_generate_get :
  forall native n (f : Z -> bool) i, widths_ok native -> (1 <= n)%nat -> 0 <= i < Z.of_nat n ->
    mask_get (generate native n f) i = Some (f i).
Proof. exact SimdArrayMain.C17_mask_generate_get_main. Qed.
Print Assumptions C17_mask_generate_get.

Example C17_mask_generate_get_ex : mask_get (generate scalar_native 5 (fun i => 2 <=? i)) 3 = Some true.
Proof. reflexivity. Qed.
