(** Single SSE vectors and masks (Vc::SSE::Vector<T>, Vc::SSE::Mask<T>), and SimdArray / SimdMaskArray reductions, queries and write-masking in SSE builds *)
From Coq Require Import ZArith List Bool Lia.
From Verif.Spec Require Import Seq NativeSpec MaskSpec VectorSpec FloatSpec.
From Verif.Model Require Import SplitSize SimdArray SimdArrayOps ScalarVec Word Fp SseReg SseMove SortNet SseInt SseBuild SseArith SseMask SseNative.
Import ListNotations.
Local Open Scope Z_scope.
From Verif.Proof Require SseVecMain.

(** C13: min() and max() of SimdArray<T, N> for the integer types in SSE builds, every size: the smallest / largest
    value. *)
Theorem C13_sse_min_max :
  forall sse41 e n (t : sa (elt e)), is_integer e = true -> wf (sse_native (esize e)) n t ->
    exists lo hi, reduce (sse_min sse41 e) (e_min e) t = Some lo /\ reduce (sse_max sse41 e) (e_max e) t = Some hi /\
      In lo (to_list t) /\ In hi (to_list t) /\
      forall x, In x (to_list t) -> e_val e lo <= e_val e x <= e_val e hi.
Proof. exact SseVecMain.C13_sse_min_max_main. Qed.
Print Assumptions C13_sse_min_max.

Example C13_sse_min_max_ex :
  let t := generate (sse_native 2) 11 (fun i => mkw 2 ((i * 7919) mod 23 - 11)) in
  option_map sval (reduce (sse_min false Short) (e_min Short) t) = Some (-11) /\
  option_map sval (reduce (sse_max true Short) (e_max Short) t) = Some 10.
Proof. split; vm_compute; reflexivity. Qed.

(** C13: sum() and product() of SimdArray<T, N> for the integer types in SSE builds, every size: the sum / product
    of all elements modulo 2^bits. *)
Theorem C13_sse_sum_product :
  forall sse41 e n (t : sa (elt e)), is_integer e = true -> wf (sse_native (esize e)) n t ->
    reduce (sse_sum e) wadd t = Some (e_of e (fold_right Z.add 0 (map (e_val e) (to_list t)))) /\
    reduce (sse_product sse41 e) wmul t = Some (e_of e (fold_right Z.mul 1 (map (e_val e) (to_list t)))).
Proof. exact SseVecMain.C13_sse_sum_product_main. Qed.
Print Assumptions C13_sse_sum_product.

Example C13_sse_sum_product_ex :
  let t := generate (sse_native 4) 7 (fun i => mkw 4 (i - 8)) in
  option_map sval (reduce (sse_sum Int) wadd t) = Some (-35) /\
  option_map sval (reduce (sse_product false Int) wmul t) = Some (-40320).
Proof. split; vm_compute; reflexivity. Qed.

(** C13: min() and max() of a float_v or double_v without NaN entries. *)
Theorem C13_sse_float_min_max :
  forall sse41 e (xs : list (elt e)), is_integer e = false -> length xs = (16 / esize e)%nat ->
    (forall x, In x xs -> is_NaN x = false) ->
    least float_le xs (v_min_all sse41 e (pack xs)) /\ greatest float_le xs (v_max_all sse41 e (pack xs)).
Proof. exact SseVecMain.C13_sse_float_min_max_main. Qed.
Print Assumptions C13_sse_float_min_max.

Example C13_sse_float_min_max_ex :
  (* -1.5f, 2.0f, -inf, 0.25f *)
  let xs := map (mkw 4) [0xbfc00000; 0x40000000; 0xff800000; 0x3e800000] in
  (forall x, In x xs -> is_NaN x = false) /\ uval (v_max_all true Float (pack xs)) = 0x40000000 /\ uval (v_min_all true Float (pack xs)) = 0xff800000.
Proof. split; [|split; vm_compute; reflexivity]. intros x H. cbn in H. repeat (destruct H as [<-|H]; [reflexivity|]). destruct H. Qed.

(** C13: sum() and product() of float_v / double_v evaluate one fixed association of all entries, whatever the
    (rounding) operation: (x0 op x3) op (x1 op x2), and x0 op x1. *)
Theorem C13_sse_float_sum_order :
  (forall (op : word 4 -> word 4 -> word 4) a b c d, h_add_ps op (pack [a; b; c; d]) = op (op a d) (op b c)) /\
  (forall (op : word 8 -> word 8 -> word 8) a b, h_add_pd op (pack [a; b]) = op a b).
Proof. exact SseVecMain.C13_sse_float_sum_order_main. Qed.
Print Assumptions C13_sse_float_sum_order.

Example C13_sse_float_sum_order_ex :
  (* an operation that is not associative *)
  uval (h_add_ps (fun a b => mkw 4 (2 * uval a - uval b)) (pack (map (mkw 4) [10; 20; 30; 40]))) = 4294967246.
Proof. vm_compute. reflexivity. Qed.

(** C14: min(mask) and max(mask) with at least one selected element; integer types, SSE builds, every size. *)
Theorem C14_sse_masked_min_max :
  forall sse41 ptest hw e n (t : sa (elt e)) (k : sa bool), is_integer e = true ->
    wf (sse_native (esize e)) n t -> wf (sse_native (esize e)) n k -> (exists i, znth false (to_list k) i = true) ->
    let sel := select_spec (to_list k) (to_list t) in
    exists lo hi,
      reduce_masked (sse_mask_ops ptest hw (esize e)) (sse_min_masked sse41 e) (e_min e) t k = Some lo /\
      reduce_masked (sse_mask_ops ptest hw (esize e)) (sse_max_masked sse41 e) (e_max e) t k = Some hi /\
      In lo sel /\ In hi sel /\ forall x, In x sel -> e_val e lo <= e_val e x <= e_val e hi.
Proof. exact SseVecMain.C14_sse_masked_min_max_main. Qed.
Print Assumptions C14_sse_masked_min_max.

Example C14_sse_masked_min_max_ex :
  let t := generate (sse_native 2) 11 (fun i => mkw 2 (i - 7)) in
  let k := generate (sse_native 2) 11 (fun i => Z.eqb (i mod 4) 1) in
  option_map sval (reduce_masked (sse_mask_ops true false 2) (sse_min_masked true Short) (e_min Short) t k) = Some (-6) /\
  option_map sval (reduce_masked (sse_mask_ops false true 2) (sse_max_masked false Short) (e_max Short) t k) = Some 2.
Proof. split; vm_compute; reflexivity. Qed.

(** C14: sum(mask) and product(mask) with at least one selected element; integer types, SSE builds, every size. *)
Theorem C14_sse_masked_sum_product :
  forall sse41 ptest hw e n (t : sa (elt e)) (k : sa bool), is_integer e = true ->
    wf (sse_native (esize e)) n t -> wf (sse_native (esize e)) n k -> (exists i, znth false (to_list k) i = true) ->
    let sel := map (e_val e) (select_spec (to_list k) (to_list t)) in
    reduce_masked (sse_mask_ops ptest hw (esize e)) (sse_sum_masked sse41 e) wadd t k = Some (e_of e (fold_right Z.add 0 sel)) /\
    reduce_masked (sse_mask_ops ptest hw (esize e)) (sse_product_masked sse41 e) wmul t k = Some (e_of e (fold_right Z.mul 1 sel)).
Proof. exact SseVecMain.C14_sse_masked_sum_product_main. Qed.
Print Assumptions C14_sse_masked_sum_product.

Example C14_sse_masked_sum_product_ex :
  let t := generate (sse_native 4) 6 (fun i => mkw 4 (i + 1)) in
  let k := generate (sse_native 4) 6 (fun i => Z.even i) in
  option_map uval (reduce_masked (sse_mask_ops true false 4) (sse_sum_masked true UInt) wadd t k) = Some 9 /\
  option_map uval (reduce_masked (sse_mask_ops false true 4) (sse_product_masked false UInt) wmul t k) = Some 15.
Proof. split; vm_compute; reflexivity. Qed.

(** C14 for float_v and double_v, min(mask): right if a selected entry exists and no selected entry is NaN or
    +infinity.  Missing: selected entries that are all +infinity (next theorem). *)
Theorem C14_sse_float_min_masked_partial :
  forall sse41 e (xs : list (elt e)) m, is_integer e = false -> length xs = (16 / esize e)%nat -> length m = length xs ->
    select_spec m xs <> [] -> (forall x, In x (select_spec m xs) -> is_NaN x = false /\ float_le x (largest_finite _) = true) ->
    least float_le (select_spec m xs) (v_min_masked sse41 e (pack xs) (mask_reg (esize e) m)).
Proof. exact SseVecMain.C14_sse_float_min_masked_partial_main. Qed.
Print Assumptions C14_sse_float_min_masked_partial.

Example C14_sse_float_min_masked_partial_ex :
  (* NaN, 2.0f, 1.0f, 0.25f; entries 1 and 2 selected *)
  let xs := map (mkw 4) [0x7fc00000; 0x40000000; 0x3f800000; 0x3e800000] in let m := [false; true; true; false] in
  (forall x, In x (select_spec m xs) -> is_NaN x = false /\ float_le x (largest_finite _) = true) /\
  uval (v_min_masked true Float (pack xs) (mask_reg 4 m)) = 0x3f800000.
Proof. split; [|vm_compute; reflexivity]. intros x H. cbn in H. repeat (destruct H as [<-|H]; [split; vm_compute; reflexivity|]). destruct H. Qed.

(** Finding: if the mask is not full and all selected entries are +infinity, min(mask) returns the largest finite
    number, which is not an entry. *)
Theorem C14_sse_float_min_masked_refuted :
  forall sse41 e (xs : list (elt e)) m, is_integer e = false -> length xs = (16 / esize e)%nat -> length m = length xs ->
    In false m -> (forall x, In x (select_spec m xs) -> float_lt (largest_finite _) x = true) ->
    v_min_masked sse41 e (pack xs) (mask_reg (esize e) m) = largest_finite _.
Proof. exact SseVecMain.C14_sse_float_min_masked_refuted_main. Qed.
Print Assumptions C14_sse_float_min_masked_refuted.

Example C14_sse_float_min_masked_refuted_ex :
  float_lt (largest_finite 4) (pos_inf 4) = true /\
  uval (v_min_masked true Float (pack (repeat (pos_inf 4) 4)) (mask_reg 4 [true; false; false; false])) = 0x7f7fffff.
Proof. split; vm_compute; reflexivity. Qed.

(** C14 for float_v and double_v, max(mask): right if no selected entry is NaN and some selected entry is at least
    std::numeric_limits<T>::min().  Missing: all other cases with a mask that is not full (next theorem). *)
Theorem C14_sse_float_max_masked_partial :
  forall sse41 e (xs : list (elt e)) m, is_integer e = false -> length xs = (16 / esize e)%nat -> length m = length xs ->
    (forall x, In x (select_spec m xs) -> is_NaN x = false) ->
    (exists x, In x (select_spec m xs) /\ float_le (smallest_normal _) x = true) ->
    greatest float_le (select_spec m xs) (v_max_masked sse41 e (pack xs) (mask_reg (esize e) m)).
Proof. exact SseVecMain.C14_sse_float_max_masked_partial_main. Qed.
Print Assumptions C14_sse_float_max_masked_partial.

Example C14_sse_float_max_masked_partial_ex :
  let xs := map (mkw 4) [0x7fc00000; 0x40000000; 0xbf800000; 0x7e800000] in let m := [false; true; true; false] in
  uval (v_max_masked true Float (pack xs) (mask_reg 4 m)) = 0x40000000.
Proof. vm_compute. reflexivity. Qed.

(** Finding: max(mask) starts from std::numeric_limits<T>::min(), the smallest positive normal number: if the mask
    is not full and all selected entries are below it (for example negative), this number is returned although
    no entry has that value. *)
Theorem C14_sse_float_max_masked_refuted :
  forall sse41 e (xs : list (elt e)) m, is_integer e = false -> length xs = (16 / esize e)%nat -> length m = length xs ->
    In false m -> (forall x, In x (select_spec m xs) -> float_lt x (smallest_normal _) = true) ->
    v_max_masked sse41 e (pack xs) (mask_reg (esize e) m) = smallest_normal _.
Proof. exact SseVecMain.C14_sse_float_max_masked_refuted_main. Qed.
Print Assumptions C14_sse_float_max_masked_refuted.

Example C14_sse_float_max_masked_refuted_ex :
  (* all entries -1.0f, one of them selected *)
  let xs := repeat (mkw 4 0xbf800000) 4 in
  float_lt (mkw 4 0xbf800000) (smallest_normal 4) = true /\
  uval (v_max_masked true Float (pack xs) (mask_reg 4 [true; false; false; false])) = 0x00800000.
Proof. split; vm_compute; reflexivity. Qed.

(** C15: where(k) | x = v in SSE builds, all six element types, every size. *)
Theorem C15_sse_masked_assign :
  forall sse41 e n (x v : sa (elt e)) (k : sa bool),
    wf (sse_native (esize e)) n x -> wf (sse_native (esize e)) n v -> wf (sse_native (esize e)) n k ->
    exists r, assign (sse_assign sse41 e) x v k = Some r /\ wf (sse_native (esize e)) n r /\
      to_list r = masked_update_spec (to_list k) (to_list v) (to_list x).
Proof. exact SseVecMain.C15_sse_masked_assign_main. Qed.
Print Assumptions C15_sse_masked_assign.

Example C15_sse_masked_assign_ex :
  option_map (fun r => map uval (to_list r)) (assign (sse_assign false Double) (generate (sse_native 8) 3 (mkw 8)) (generate (sse_native 8) 3 (fun i => mkw 8 (i + 100)))
    (generate (sse_native 8) 3 Z.odd)) = Some [0; 101; 2].
Proof. vm_compute. reflexivity. Qed.

(** C15: iif(k, a, b) in SSE builds, all six element types, every size. *)
Theorem C15_sse_iif :
  forall sse41 e n (k : sa bool) (a b : sa (elt e)),
    wf (sse_native (esize e)) n k -> wf (sse_native (esize e)) n a -> wf (sse_native (esize e)) n b ->
    exists r, iif (sse_assign sse41 e) k a b = Some r /\ wf (sse_native (esize e)) n r /\
      to_list r = map3 (fun (m : bool) x y => if m then x else y) (to_list k) (to_list a) (to_list b).
Proof. exact SseVecMain.C15_sse_iif_main. Qed.
Print Assumptions C15_sse_iif.

Example C15_sse_iif_ex :
  option_map (fun r => map uval (to_list r)) (iif (sse_assign false Short) (generate (sse_native 2) 9 Z.odd) (generate (sse_native 2) 9 (mkw 2)) (generate (sse_native 2) 9 (fun i => mkw 2 (i + 100))))
   = Some [100; 1; 102; 3; 104; 5; 106; 7; 108].
Proof. vm_compute. reflexivity. Qed.

(** C15: where(k) | x op= y in SSE builds, any lane operation, every size. *)
Theorem C15_sse_masked_op_assign :
  forall sse41 e (f : elt e -> elt e -> elt e) n (x y : sa (elt e)) (k : sa bool),
    wf (sse_native (esize e)) n x -> wf (sse_native (esize e)) n y -> wf (sse_native (esize e)) n k ->
    exists r, masked_op_assign (sse_assign sse41 e) f x y k = Some r /\ wf (sse_native (esize e)) n r /\
      to_list r = map3 (fun (b : bool) a c => if b then f a c else a) (to_list k) (to_list x) (to_list y).
Proof. exact SseVecMain.C15_sse_masked_op_assign_main. Qed.
Print Assumptions C15_sse_masked_op_assign.

Example C15_sse_masked_op_assign_ex :
  option_map (fun r => map uval (to_list r)) (masked_op_assign (sse_assign true UShort) wmul (generate (sse_native 2) 9 (mkw 2)) (generate (sse_native 2) 9 (fun i => mkw 2 300))
    (generate (sse_native 2) 9 Z.odd)) = Some [0; 300; 2; 900; 4; 1500; 6; 2100; 8].
Proof. vm_compute. reflexivity. Qed.

(** C15: where(k) | ++x and --x in SSE builds for the integer types, every size. *)
Theorem C15_sse_masked_increment :
  forall e n (x : sa (elt e)) (k : sa bool), is_integer e = true ->
    wf (sse_native (esize e)) n x -> wf (sse_native (esize e)) n k ->
    (exists r, masked_increment (sse_zero_inverted e) wadd (mkw _ 1) x k = Some r /\ wf (sse_native (esize e)) n r /\
      to_list r = map2 (fun (b : bool) a => if b then e_of e (e_val e a + 1) else a) (to_list k) (to_list x)) /\
    (exists r, masked_increment (sse_zero_inverted e) wsub (mkw _ 1) x k = Some r /\ wf (sse_native (esize e)) n r /\
      to_list r = map2 (fun (b : bool) a => if b then e_of e (e_val e a - 1) else a) (to_list k) (to_list x)).
Proof. exact SseVecMain.C15_sse_masked_increment_main. Qed.
Print Assumptions C15_sse_masked_increment.

Example C15_sse_masked_increment_ex :
  option_map (fun r => map sval (to_list r)) (masked_increment (sse_zero_inverted Int) wadd (mkw 4 1) (generate (sse_native 4) 5 (fun i => mkw 4 (2 ^ 31 - 1)))
    (generate (sse_native 4) 5 Z.odd)) = Some [2147483647; -2147483648; 2147483647; -2147483648; 2147483647].
Proof. vm_compute. reflexivity. Qed.

(** Finding: for float and double, where(k) | ++x adds +0.0 to the entries that are not selected.  With any
    addition that yields +0 for (-0) + (+0), as IEEE-754 requires, an unselected -0.0 becomes +0.0. *)
Theorem C15_sse_masked_increment_refuted :
  forall e (fadd : elt e -> elt e -> elt e) (one : elt e) n (x : sa (elt e)) (k : sa bool) i, is_integer e = false ->
    fadd (neg_zero _) (w0 _) = w0 _ ->
    wf (sse_native (esize e)) n x -> wf (sse_native (esize e)) n k -> 0 <= i < Z.of_nat n ->
    znth (w0 _) (to_list x) i = neg_zero _ -> znth false (to_list k) i = false ->
    exists r, masked_increment (sse_zero_inverted e) fadd one x k = Some r /\ znth (w0 _) (to_list r) i = w0 _ /\ neg_zero (esize e) <> w0 _.
Proof. exact SseVecMain.C15_sse_masked_increment_refuted_main. Qed.
Print Assumptions C15_sse_masked_increment_refuted.

Example C15_sse_masked_increment_refuted_ex :
  (* an addition that is right for -0 + +0: here "pick the operand that is not -0, else the second" *)
  let fadd := fun a b : word 4 => if uval a =? sign_weight 4 then b else a in
  uval (fadd (neg_zero 4) (w0 4)) = uval (w0 4) /\
  option_map (fun r => map uval (to_list r)) (masked_increment (sse_zero_inverted Float) fadd (mkw 4 0x3f800000)
     (generate (sse_native 4) 4 (fun _ => neg_zero 4)) (generate (sse_native 4) 4 (fun _ => false))) = Some [0; 0; 0; 0].
Proof. split; vm_compute; reflexivity. Qed.

(** C16: isFull, isEmpty, isNotEmpty, isMix, count, firstOne of SimdMaskArray<T, N> in SSE builds (with or without
    ptest and popcnt), every size. *)
Theorem C16_sse_mask_queries :
  forall ptest hw e n (m : sa bool), wf (sse_native (esize e)) n m ->
    let K := sse_mask_ops ptest hw (esize e) in
    (is_full K m = true <-> forall b, In b (to_list m) -> b = true) /\
    (is_empty K m = true <-> forall b, In b (to_list m) -> b = false) /\
    (is_not_empty K m = true <-> exists b, In b (to_list m) /\ b = true) /\
    (is_mix K m = true <-> In true (to_list m) /\ In false (to_list m)) /\
    SimdArrayOps.count K m = count_spec (to_list m) /\
    (In true (to_list m) -> first_one_spec (to_list m) (first_one K m)).
Proof. exact SseVecMain.C16_sse_mask_queries_main. Qed.
Print Assumptions C16_sse_mask_queries.

Example C16_sse_mask_queries_ex :
  let m := generate (sse_native 2) 19 (fun i => Z.eqb (i mod 5) 3) in let K := sse_mask_ops false false 2 in
  (is_full K m, is_empty K m, is_mix K m, SimdArrayOps.count K m, first_one K m) = (false, false, true, 4, 3).
Proof. vm_compute. reflexivity. Qed.

(** C16: toInt() of SimdMaskArray<T, N>, N <= 31, and m == m', m != m' (every size) in SSE builds. *)
Theorem C16_sse_mask_to_int :
  forall ptest hw e n (m m' : sa bool), wf (sse_native (esize e)) n m -> wf (sse_native (esize e)) n m' ->
    let K := sse_mask_ops ptest hw (esize e) in
    ((n <= 31)%nat -> exists v, to_int K m = Some v /\ 0 <= v < 2 ^ Z.of_nat n /\
      forall i, 0 <= i < Z.of_nat n -> Z.testbit v i = znth false (to_list m) i) /\
    exists b, mask_eq K m m' = Some b /\ mask_neq K m m' = Some (negb b) /\ (b = true <-> to_list m = to_list m').
Proof. exact SseVecMain.C16_sse_mask_to_int_main. Qed.
Print Assumptions C16_sse_mask_to_int.

Example C16_sse_mask_to_int_ex : to_int (sse_mask_ops false false 2) (generate (sse_native 2) 19 (fun i => Z.eqb (i mod 5) 3)) = Some 270600.
Proof. vm_compute. reflexivity. Qed.

(** C16: the queries of a single SSE mask (2, 4 or 8 entries), all register values a mask can have. *)
Theorem C16_sse_native_mask :
  forall ptest hw e m, length m = (16 / esize e)%nat ->
    let k := mask_reg (esize e) m in
    (m_full ptest k = true <-> forall b, In b m -> b = true) /\
    (m_empty ptest k = true <-> forall b, In b m -> b = false) /\
    (m_not_empty ptest k = true <-> In true m) /\
    (m_mix ptest k = true <-> In true m /\ In false m) /\
    m_count hw (esize e) k = count_spec m /\
    m_to_int (esize e) k = to_int_spec m /\
    match m_first (esize e) k with
    | Some i => 0 <= i < Z.of_nat (length m) /\ first_one_spec m i
    | None => forall b, In b m -> b = false
    end.
Proof. exact SseVecMain.C16_sse_native_mask_main. Qed.
Print Assumptions C16_sse_native_mask.

Example C16_sse_native_mask_ex : m_first 2 (mask_reg 2 [false; false; true; false; true; true; false; false]) = Some 2.
Proof. vm_compute. reflexivity. Qed.

(** C17: construction from bool, generate, m[i] and setting m[i] of a single SSE mask. *)
Theorem C17_sse_mask_entries :
  forall e m (gen : Z -> bool) (b : bool) i, length m = (16 / esize e)%nat -> 0 <= i < Z.of_nat (16 / esize e) ->
    m_broadcast b = mask_reg (esize e) (repeat b (16 / esize e)) /\
    m_generate (esize e) gen = mask_reg (esize e) (tab (16 / esize e) gen) /\
    m_get (esize e) (mask_reg (esize e) m) i = znth false m i /\
    m_set (esize e) (mask_reg (esize e) m) i b = mask_reg (esize e) (tab (16 / esize e) (fun j => if j =? i then b else znth false m j)).
Proof. exact SseVecMain.C17_sse_mask_entries_main. Qed.
Print Assumptions C17_sse_mask_entries.

Example C17_sse_mask_entries_ex : m_get 2 (m_generate 2 (fun i => Z.even i)) 6 = true /\ m_get 2 (m_generate 2 Z.even) 5 = false.
Proof. split; vm_compute; reflexivity. Qed.

(** C17: !, &, |, ^ of single SSE masks. *)
Theorem C17_sse_mask_logic :
  forall e a b, length a = (16 / esize e)%nat -> length b = (16 / esize e)%nat ->
    let K := mask_reg (esize e) in
    m_not (K a) = K (map negb a) /\ m_and (K a) (K b) = K (map2 andb a b) /\
    m_or (K a) (K b) = K (map2 orb a b) /\ m_xor (K a) (K b) = K (map2 xorb a b).
Proof. exact SseVecMain.C17_sse_mask_logic_main. Qed.
Print Assumptions C17_sse_mask_logic.

Example C17_sse_mask_logic_ex : m_to_int 4 (m_xor (mask_reg 4 [true; true; false; false]) (mask_reg 4 [true; false; true; false])) = 6.
Proof. vm_compute. reflexivity. Qed.

(** C17: shifted(k) of a single SSE mask for all amounts whose byte count fits an int (others are undefined
    behaviour in the code: signed overflow). *)
Theorem C17_sse_mask_shifted :
  forall e m k, length m = (16 / esize e)%nat -> - 2 ^ 31 <= k * Z.of_nat (esize e) < 2 ^ 31 ->
    m_shifted (esize e) (mask_reg (esize e) m) k = Some (mask_reg (esize e) (shift_spec false m k)).
Proof. exact SseVecMain.C17_sse_mask_shifted_main. Qed.
Print Assumptions C17_sse_mask_shifted.

Example C17_sse_mask_shifted_ex :
  option_map (m_to_int 2) (m_shifted 2 (mask_reg 2 [true; true; false; true; false; false; false; true]) (-1)) = Some 22.
Proof. vm_compute. reflexivity. Qed.

(** C18: store writes exactly one bool (0 or 1) per entry, and load reads them back. *)
Theorem C18_sse_mask_load_store :
  forall e m, length m = (16 / esize e)%nat ->
    m_store (esize e) (mask_reg (esize e) m) = map (fun b : bool => if b then 1 else 0) m /\
    m_load (esize e) (map (fun b : bool => if b then 1 else 0) m) = mask_reg (esize e) m.
Proof. exact SseVecMain.C18_sse_mask_load_store_main. Qed.
Print Assumptions C18_sse_mask_load_store.

Example C18_sse_mask_load_store_ex : m_store 2 (mask_reg 2 [true; true; false; true; false; false; false; true]) = [1; 1; 0; 1; 0; 0; 0; 1].
Proof. vm_compute. reflexivity. Qed.

(** C19: converting an SSE mask to the mask type of another element type keeps the common entries and sets the
    others to false. *)
Theorem C19_sse_mask_cast :
  forall e e' m, length m = (16 / esize e)%nat ->
    mask_cast (16 / esize e) (16 / esize e') (mask_reg (esize e) m) = Some (mask_reg (esize e') (cast_spec (16 / esize e') m)).
Proof. exact SseVecMain.C19_sse_mask_cast_main. Qed.
Print Assumptions C19_sse_mask_cast.

Example C19_sse_mask_cast_ex :
  option_map (m_to_int 2) (mask_cast 4 8 (mask_reg 4 [true; false; true; true])) = Some 13.
Proof. vm_compute. reflexivity. Qed.

(** C21: ==, !=, <, <=, >, >= of the SSE integer vectors compare the values of the entries (signed or unsigned). *)
Theorem C21_sse_compare :
  forall e (xs ys : list (elt e)), is_integer e = true -> length xs = (16 / esize e)%nat -> length ys = (16 / esize e)%nat ->
    let R := pack xs in let S := pack ys in let val := e_val e in
    let K f := mask_reg (esize e) (map2 f xs ys) in
    v_eq e R S = K (fun a b => val a =? val b) /\ v_ne e R S = K (fun a b => negb (val a =? val b)) /\
    v_lt e R S = K (fun a b => val a <? val b) /\ v_le e R S = K (fun a b => val a <=? val b) /\
    v_gt e R S = K (fun a b => val b <? val a) /\ v_ge e R S = K (fun a b => val b <=? val a).
Proof. exact SseVecMain.C21_sse_compare_main. Qed.
Print Assumptions C21_sse_compare.

Example C21_sse_compare_ex :
  m_to_int 4 (v_lt UInt (pack (map (mkw 4) [1; 2 ^ 31; 5; 2 ^ 32 - 1])) (pack (map (mkw 4) [2 ^ 31; 1; 5; 0]))) = 1 /\
  m_to_int 4 (v_lt Int (pack (map (mkw 4) [1; 2 ^ 31; 5; 2 ^ 32 - 1])) (pack (map (mkw 4) [2 ^ 31; 1; 5; 0]))) = 10.
Proof. split; vm_compute; reflexivity. Qed.

(** C21: the 64-bit equality and signed greater-than helpers, with and without SSE4.1 / SSE4.2. *)
Theorem C21_sse_compare_64 :
  forall (sse4 : bool) (a b c d : word 8),
    cmpeq_epi64 sse4 (pack [a; b]) (pack [c; d]) = mask_reg 8 [uval a =? uval c; uval b =? uval d] /\
    cmpgt_epi64 sse4 (pack [a; b]) (pack [c; d]) = mask_reg 8 [sval c <? sval a; sval d <? sval b].
Proof. exact SseVecMain.C21_sse_compare_64_main. Qed.
Print Assumptions C21_sse_compare_64.

Example C21_sse_compare_64_ex :
  m_to_int 8 (cmpgt_epi64 false (pack [mkw 8 (2 ^ 32); mkw 8 (-1)]) (pack [mkw 8 (2 ^ 32 - 1); mkw 8 0])) = 1.
Proof. vm_compute. reflexivity. Qed.

(** C22: +, -, *, unary minus, ++, -- of the SSE integer vectors compute the mathematical result modulo 2^bits; with
    and without SSSE3 / SSE4.1. *)
Theorem C22_sse_arithmetic :
  forall sse41 ssse3 e (xs ys : list (elt e)), is_integer e = true -> length xs = (16 / esize e)%nat -> length ys = (16 / esize e)%nat ->
    let val := e_val e in
    v_add e (pack xs) (pack ys) = pack (map2 (fun a b => e_of e (val a + val b)) xs ys) /\
    v_sub e (pack xs) (pack ys) = pack (map2 (fun a b => e_of e (val a - val b)) xs ys) /\
    v_mul sse41 e (pack xs) (pack ys) = pack (map2 (fun a b => e_of e (val a * val b)) xs ys) /\
    v_neg ssse3 e (pack xs) = pack (map (fun a => e_of e (- val a)) xs) /\
    v_increment e (pack xs) = pack (map (fun a => e_of e (val a + 1)) xs) /\
    v_decrement e (pack xs) = pack (map (fun a => e_of e (val a - 1)) xs).
Proof. exact SseVecMain.C22_sse_arithmetic_main. Qed.
Print Assumptions C22_sse_arithmetic.

Example C22_sse_arithmetic_ex :
  map sval (lanes 4 (v_mul false Int (pack (map (mkw 4) [-3; 70000; 7; -1])) (pack (map (mkw 4) [5; 70000; -7; -1])))) = [-15; 605032704; -49; 1].
Proof. vm_compute. reflexivity. Qed.

(** C22: min(a, b) and max(a, b) of the SSE integer vectors. *)
Theorem C22_sse_min_max :
  forall sse41 e (xs ys : list (elt e)), is_integer e = true -> length xs = (16 / esize e)%nat -> length ys = (16 / esize e)%nat ->
    map (e_val e) (lanes (esize e) (v_min sse41 e (pack xs) (pack ys))) = map2 Z.min (map (e_val e) xs) (map (e_val e) ys) /\
    map (e_val e) (lanes (esize e) (v_max sse41 e (pack xs) (pack ys))) = map2 Z.max (map (e_val e) xs) (map (e_val e) ys).
Proof. exact SseVecMain.C22_sse_min_max_main. Qed.
Print Assumptions C22_sse_min_max.

Example C22_sse_min_max_ex :
  map uval (lanes 2 (v_min false UShort (pack (map (mkw 2) [1; 40000; 3; 4; 5; 6; 7; 8])) (pack (map (mkw 2) [2; 1; 65535; 0; 5; 6; 7; 9])))) = [1; 1; 3; 0; 5; 6; 7; 8].
Proof. vm_compute. reflexivity. Qed.

(** C22: x << k and x >> k by a scalar for 0 <= k < bits: multiplication by 2^k modulo 2^bits, and division by 2^k
    rounding down (arithmetic for signed types). *)
Theorem C22_sse_shift :
  forall e (xs : list (elt e)) k, is_integer e = true -> length xs = (16 / esize e)%nat -> 0 <= k < bits (esize e) ->
    v_shl e (pack xs) k = pack (map (fun a => e_of e (e_val e a * 2 ^ k)) xs) /\
    v_shr e (pack xs) k = pack (map (fun a => e_of e (e_val e a / 2 ^ k)) xs).
Proof. exact SseVecMain.C22_sse_shift_main. Qed.
Print Assumptions C22_sse_shift.

Example C22_sse_shift_ex : map sval (lanes 4 (v_shr Int (pack (map (mkw 4) [-7; 7; 1; -1])) 1)) = [-4; 3; 0; -1].
Proof. vm_compute. reflexivity. Qed.

(** C22: abs of short_v and int_v (and the 8-bit helper): |x| modulo 2^bits, with and without SSSE3. *)
Theorem C22_sse_abs :
  forall ssse3 w (xs : list (word w)), w = 1%nat \/ w = 2%nat \/ w = 4%nat -> length xs = (16 / w)%nat ->
    abs_epi ssse3 w (pack xs) = pack (map (fun a => mkw w (Z.abs (sval a))) xs).
Proof. exact SseVecMain.C22_sse_abs_main. Qed.
Print Assumptions C22_sse_abs.

Example C22_sse_abs_ex : map sval (lanes 4 (abs_epi false 4 (pack (map (mkw 4) [-7; 7; 0; 2 ^ 31])))) = [7; 7; 0; -2147483648].
Proof. vm_compute. reflexivity. Qed.

(** C22: the immediate blends (all masks) and blendv, with and without SSE4.1. *)
Theorem C22_sse_blend :
  forall sse41 m,
    (forall xs ys : list (word 8), 0 <= m < 4 -> length xs = 2%nat -> length ys = 2%nat ->
       blend_pd sse41 (Z.to_nat m) (pack xs) (pack ys) = Some (pack (blend_spec m xs ys))) /\
    (forall xs ys : list (word 4), 0 <= m < 16 -> length xs = 4%nat -> length ys = 4%nat ->
       blend_ps sse41 (Z.to_nat m) (pack xs) (pack ys) = Some (pack (blend_spec m xs ys))) /\
    (forall xs ys : list (word 2), 0 <= m < 256 -> length xs = 8%nat -> length ys = 8%nat ->
       blend_epi16 sse41 m (pack xs) (pack ys) = pack (blend_spec m xs ys)) /\
    (forall e (xs ys : list (elt e)) k, length xs = (16 / esize e)%nat -> length ys = length xs -> length k = length xs ->
       blendv_epi8 sse41 (pack xs) (pack ys) (mask_reg (esize e) k) = pack (masked_update_spec k ys xs)).
Proof. exact SseVecMain.C22_sse_blend_main. Qed.
Print Assumptions C22_sse_blend.

Example C22_sse_blend_ex :
  map uval (lanes 2 (blend_epi16 false 0x5a (pack (tab 8 (mkw 2))) (pack (tab 8 (fun i => mkw 2 (i + 10)))))) = [0; 11; 2; 13; 14; 5; 16; 7].
Proof. vm_compute. reflexivity. Qed.

(** C22: zero and sign extension of the low entries, with and without SSE4.1. *)
Theorem C22_sse_widen :
  forall sse41,
    (forall w (xs : list (word w)), w = 1%nat \/ w = 2%nat -> length xs = (16 / w)%nat ->
      cvtepu sse41 w (pack xs) = pack (map (fun x => mkw (2 * w) (uval x)) (firstn (8 / w) xs)) /\
      cvtepi sse41 w (pack xs) = pack (map (fun x => mkw (2 * w) (sval x)) (firstn (8 / w) xs))) /\
    (forall xs : list (word 1), length xs = 16%nat ->
      cvtepu8_epi32 sse41 (pack xs) = pack (map (fun x => mkw 4 (uval x)) (firstn 4 xs)) /\
      cvtepi8_epi32 sse41 (pack xs) = pack (map (fun x => mkw 4 (sval x)) (firstn 4 xs))).
Proof. exact SseVecMain.C22_sse_widen_main. Qed.
Print Assumptions C22_sse_widen.

Example C22_sse_widen_ex : map sval (lanes 4 (cvtepi false 2 (pack (map (mkw 2) [-1; 2; -3; 4; 5; 6; 7; 8])))) = [-1; 2; -3; 4].
Proof. vm_compute. reflexivity. Qed.

(** C22: unary minus of float_v and double_v negates the value exactly, flips the sign (also of zeros) and keeps NaNs. *)
Theorem C22_sse_float_negate :
  forall ssse3 e (xs : list (elt e)), is_integer e = false -> length xs = (16 / esize e)%nat ->
    exists ys : list (elt e), v_neg ssse3 e (pack xs) = pack ys /\ map fvalue ys = map (fun x => - fvalue x) xs /\
      map sign_bit ys = map (fun x => negb (sign_bit x)) xs /\ map is_NaN ys = map is_NaN xs.
Proof. exact SseVecMain.C22_sse_float_negate_main. Qed.
Print Assumptions C22_sse_float_negate.

Example C22_sse_float_negate_ex : map uval (lanes 4 (v_neg true Float (pack (map (mkw 4) [0x3f800000; 0; 0x80000000; 0xc0000000])))) = [0xbf800000; 0x80000000; 0; 0x40000000].
Proof. vm_compute. reflexivity. Qed.

(** C39: ==, !=, <, <=, > of float_v and double_v follow IEEE-754, for all bit patterns including NaN, infinities and
    signed zeros. *)
Theorem C39_sse_float_compare :
  forall e (xs ys : list (elt e)), is_integer e = false -> length xs = (16 / esize e)%nat -> length ys = (16 / esize e)%nat ->
    let R := pack xs in let S := pack ys in let K f := mask_reg (esize e) (map2 f xs ys) in
    v_eq e R S = K float_eq /\ v_ne e R S = K (fun a b => negb (float_eq a b)) /\
    v_lt e R S = K float_lt /\ v_le e R S = K float_le /\ v_gt e R S = K (fun a b => float_lt b a).
Proof. exact SseVecMain.C39_sse_float_compare_main. Qed.
Print Assumptions C39_sse_float_compare.

Example C39_sse_float_compare_ex :
  (* -0 == +0, NaN == NaN, 1 <= 2, 1 <= NaN *)
  m_to_int 4 (v_eq Float (pack (map (mkw 4) [0x80000000; 0x7fc00000; 0; 0])) (pack (map (mkw 4) [0; 0x7fc00000; 1; 1]))) = 1.
Proof. vm_compute. reflexivity. Qed.

(** C39 for >= of float_v and double_v: right if no entry is NaN.  Missing: NaN entries (next theorem). *)
Theorem C39_sse_float_ge_partial :
  forall e (xs ys : list (elt e)), is_integer e = false -> length xs = (16 / esize e)%nat -> length ys = (16 / esize e)%nat ->
    (forall x, In x (xs ++ ys) -> is_NaN x = false) ->
    v_ge e (pack xs) (pack ys) = mask_reg (esize e) (map2 (fun a b => float_le b a) xs ys).
Proof. exact SseVecMain.C39_sse_float_ge_partial_main. Qed.
Print Assumptions C39_sse_float_ge_partial.

Example C39_sse_float_ge_partial_ex :
  m_to_int 4 (v_ge Float (pack (map (mkw 4) [0x80000000; 0xbf800000; 0x3f800000; 0])) (pack (map (mkw 4) [0; 0; 0; 1]))) = 5.
Proof. vm_compute. reflexivity. Qed.

(** Finding: a >= b is computed as not (a < b): it is true wherever an operand is NaN, where C++ gives false. *)
Theorem C39_sse_float_ge_refuted :
  forall e (xs ys : list (elt e)), is_integer e = false -> length xs = (16 / esize e)%nat -> length ys = (16 / esize e)%nat ->
    forall i, (i < 16 / esize e)%nat -> is_NaN (nth i xs (w0 _)) || is_NaN (nth i ys (w0 _)) = true ->
    nth i (lanes (esize e) (v_ge e (pack xs) (pack ys))) (w0 _) = wmask _ true /\
    float_le (nth i ys (w0 _)) (nth i xs (w0 _)) = false.
Proof. exact SseVecMain.C39_sse_float_ge_refuted_main. Qed.
Print Assumptions C39_sse_float_ge_refuted.

Example C39_sse_float_ge_refuted_ex : is_NaN (a_nan 4) = true /\ m_to_int 4 (v_ge Float (pack (repeat (a_nan 4) 4)) (pack (repeat (a_nan 4) 4))) = 15.
Proof. split; vm_compute; reflexivity. Qed.
