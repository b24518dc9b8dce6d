(** Single AVX vectors and masks (Vc::AVX2::Vector<T>, Vc::AVX2::Mask<T>), and SimdArray / SimdMaskArray reductions, queries and write-masking in AVX builds *)
From Coq Require Import ZArith List Bool Lia.
From Verif.Spec Require Import Seq NativeSpec MaskSpec VectorSpec FloatSpec.
From Verif.Model Require Import SplitSize SimdArray SimdArrayOps ScalarVec Word Fp SseReg SseMove SortNet SseInt SseBuild SseArith SseMask SseNative AvxReg AvxMove AvxBuild AvxShuffle AvxMask AvxArith.
Import ListNotations.
Local Open Scope Z_scope.
From Verif.Proof Require AvxVecMain.

(** C13: min() and max() of SimdArray<T, N> for the integer types in AVX and AVX2 builds, every size: the smallest /
    largest value. *)
Theorem C13_avx_min_max :
  forall avx2 e n (t : sa (elt e)), is_integer e = true -> wf (avx_widths_of avx2 e) n t ->
    exists lo hi, reduce (avx_min e) (e_min e) t = Some lo /\ reduce (avx_max e) (e_max e) t = Some hi /\
      In lo (to_list t) /\ In hi (to_list t) /\
      forall x, In x (to_list t) -> e_val e lo <= e_val e x <= e_val e hi.
Proof. exact AvxVecMain.C13_avx_min_max_main. Qed.
Print Assumptions C13_avx_min_max.

Example C13_avx_min_max_ex :
  let t := generate (avx_widths_of true Short) 27 (fun i => mkw 2 ((i * 7919) mod 29 - 14)) in
  option_map sval (reduce (avx_min Short) (e_min Short) t) = Some (-14) /\
  option_map sval (reduce (avx_max Short) (e_max Short) t) = Some 14.
Proof. split; vm_compute; reflexivity. Qed.

(** C13: sum() and product() of SimdArray<T, N> for the integer types in AVX and AVX2 builds, every size: the sum /
    product of all elements modulo 2^bits. *)
Theorem C13_avx_sum_product :
  forall avx2 e n (t : sa (elt e)), is_integer e = true -> wf (avx_widths_of avx2 e) n t ->
    reduce (avx_sum e) wadd t = Some (e_of e (fold_right Z.add 0 (map (e_val e) (to_list t)))) /\
    reduce (avx_product e) wmul t = Some (e_of e (fold_right Z.mul 1 (map (e_val e) (to_list t)))).
Proof. exact AvxVecMain.C13_avx_sum_product_main. Qed.
Print Assumptions C13_avx_sum_product.

Example C13_avx_sum_product_ex :
  let t := generate (avx_widths_of true Int) 9 (fun i => mkw 4 (i - 10)) in
  option_map sval (reduce (avx_sum Int) wadd t) = Some (-54) /\
  option_map sval (reduce (avx_product Int) wmul t) = Some (-3628800).
Proof. split; vm_compute; reflexivity. Qed.

(** C13: min() and max() of an AVX float_v or double_v without NaN entries. *)
Theorem C13_avx_float_min_max :
  forall e (xs : list (elt e)), is_integer e = false -> length xs = (32 / esize e)%nat ->
    (forall x, In x xs -> is_NaN x = false) ->
    least float_le xs (y_min_all e (ypack xs)) /\ greatest float_le xs (y_max_all e (ypack xs)).
Proof. exact AvxVecMain.C13_avx_float_min_max_main. Qed.
Print Assumptions C13_avx_float_min_max.

Example C13_avx_float_min_max_ex :
  (* -1.5, 2.0, -inf, 0.25 *)
  let xs := map (mkw 8) [0xbff8000000000000; 0x4000000000000000; 0xfff0000000000000; 0x3fd0000000000000] in
  (forall x, In x xs -> is_NaN x = false) /\ uval (y_max_all Double (ypack xs)) = 0x4000000000000000 /\ uval (y_min_all Double (ypack xs)) = 0xfff0000000000000.
Proof. split; [|split; vm_compute; reflexivity]. intros x H. cbn in H. repeat (destruct H as [<-|H]; [reflexivity|]). destruct H. Qed.

(** C13: sum() and product() of an AVX float_v / double_v evaluate one fixed association of all entries, whatever the
    (rounding) operation. *)
Theorem C13_avx_float_sum_order :
  (forall (op : word 4 -> word 4 -> word 4) x0 x1 x2 x3 x4 x5 x6 x7, y_reduce_ps op (ypack [x0; x1; x2; x3; x4; x5; x6; x7]) =
     op (op (op x0 x4) (op x2 x6)) (op (op x1 x5) (op x3 x7))) /\
  (forall (op : word 8 -> word 8 -> word 8) x0 x1 x2 x3, y_reduce_pd op (ypack [x0; x1; x2; x3]) = op (op x0 x2) (op x1 x3)).
Proof. exact AvxVecMain.C13_avx_float_sum_order_main. Qed.
Print Assumptions C13_avx_float_sum_order.

Example C13_avx_float_sum_order_ex :
  (* an operation that is not associative *)
  uval (y_reduce_pd (fun a b => mkw 8 (3 * uval a - uval b)) (ypack (map (mkw 8) [10; 20; 3; 4]))) = 25.
Proof. vm_compute. reflexivity. Qed.

(** C14: min(mask) and max(mask) with at least one selected element; integer types, AVX and AVX2 builds, every size. *)
Theorem C14_avx_masked_min_max :
  forall limits avx2 ptest hw e n (t : sa (elt e)) (k : sa bool), is_integer e = true ->
    wf (avx_widths_of avx2 e) n t -> wf (avx_widths_of avx2 e) n k -> (exists i, znth false (to_list k) i = true) ->
    let sel := select_spec (to_list k) (to_list t) in
    exists lo hi,
      reduce_masked (avx_mask_ops ptest hw e) (avx_min_masked limits e) (e_min e) t k = Some lo /\
      reduce_masked (avx_mask_ops ptest hw e) (avx_max_masked limits e) (e_max e) t k = Some hi /\
      In lo sel /\ In hi sel /\ forall x, In x sel -> e_val e lo <= e_val e x <= e_val e hi.
Proof. exact AvxVecMain.C14_avx_masked_min_max_main. Qed.
Print Assumptions C14_avx_masked_min_max.

Example C14_avx_masked_min_max_ex :
  let t := generate (avx_widths_of true Short) 21 (fun i => mkw 2 (i - 7)) in
  let k := generate (avx_widths_of true Short) 21 (fun i => Z.eqb (i mod 4) 1) in
  option_map sval (reduce_masked (avx_mask_ops true false Short) (avx_min_masked false Short) (e_min Short) t k) = Some (-6) /\
  option_map sval (reduce_masked (avx_mask_ops false true Short) (avx_max_masked false Short) (e_max Short) t k) = Some 10.
Proof. split; vm_compute; reflexivity. Qed.

(** C14: sum(mask) and product(mask) with at least one selected element; integer types, AVX and AVX2 builds, every
    size. *)
Theorem C14_avx_masked_sum_product :
  forall avx2 ptest hw e n (t : sa (elt e)) (k : sa bool), is_integer e = true ->
    wf (avx_widths_of avx2 e) n t -> wf (avx_widths_of avx2 e) n k -> (exists i, znth false (to_list k) i = true) ->
    let sel := map (e_val e) (select_spec (to_list k) (to_list t)) in
    reduce_masked (avx_mask_ops ptest hw e) (avx_sum_masked e) wadd t k = Some (e_of e (fold_right Z.add 0 sel)) /\
    reduce_masked (avx_mask_ops ptest hw e) (avx_product_masked e) wmul t k = Some (e_of e (fold_right Z.mul 1 sel)).
Proof. exact AvxVecMain.C14_avx_masked_sum_product_main. Qed.
Print Assumptions C14_avx_masked_sum_product.

Example C14_avx_masked_sum_product_ex :
  let t := generate (avx_widths_of true UInt) 11 (fun i => mkw 4 (i + 1)) in
  let k := generate (avx_widths_of true UInt) 11 (fun i => Z.even i) in
  option_map uval (reduce_masked (avx_mask_ops true false UInt) (avx_sum_masked UInt) wadd t k) = Some 36 /\
  option_map uval (reduce_masked (avx_mask_ops false true UInt) (avx_product_masked UInt) wmul t k) = Some 10395.
Proof. split; vm_compute; reflexivity. Qed.

(** C14 for the AVX float_v and double_v, min(mask), in a program that includes <Vc/limits>: right if a selected entry
    exists and no selected entry is NaN or +infinity.  Missing: selected entries that are all +infinity, and
    programs without <Vc/limits> (next theorems). *)
Theorem C14_avx_float_min_masked_partial :
  forall e (xs : list (elt e)) m, is_integer e = false -> length xs = (32 / esize e)%nat -> length m = length xs ->
    select_spec m xs <> [] -> (forall x, In x (select_spec m xs) -> is_NaN x = false /\ float_le x (largest_finite _) = true) ->
    least float_le (select_spec m xs) (y_min_masked true e (ypack xs) (ymask_reg (esize e) m)).
Proof. exact AvxVecMain.C14_avx_float_min_masked_partial_main. Qed.
Print Assumptions C14_avx_float_min_masked_partial.

Example C14_avx_float_min_masked_partial_ex :
  (* NaN, 2.0f, 1.0f, 0.25f, ...; entries 1 and 2 selected *)
  let xs := map (mkw 4) [0x7fc00000; 0x40000000; 0x3f800000; 0x3e800000; 0; 0; 0; 0] in let m := [false; true; true; false; false; false; false; false] in
  (forall x, In x (select_spec m xs) -> is_NaN x = false /\ float_le x (largest_finite _) = true) /\
  uval (y_min_masked true Float (ypack xs) (ymask_reg 4 m)) = 0x3f800000.
Proof. split; [|vm_compute; reflexivity]. intros x H. cbn in H. repeat (destruct H as [<-|H]; [split; vm_compute; reflexivity|]). destruct H. Qed.

(** C14 for the AVX float_v and double_v, max(mask), in a program that includes <Vc/limits>: right if no selected
    entry is NaN and some selected entry is at least std::numeric_limits<T>::min().  Missing: all other cases
    with a mask that is not full (next theorem). *)
Theorem C14_avx_float_max_masked_partial :
  forall e (xs : list (elt e)) m, is_integer e = false -> length xs = (32 / esize e)%nat -> length m = length xs ->
    (forall x, In x (select_spec m xs) -> is_NaN x = false) ->
    (exists x, In x (select_spec m xs) /\ float_le (smallest_normal _) x = true) ->
    greatest float_le (select_spec m xs) (y_max_masked true e (ypack xs) (ymask_reg (esize e) m)).
Proof. exact AvxVecMain.C14_avx_float_max_masked_partial_main. Qed.
Print Assumptions C14_avx_float_max_masked_partial.

Example C14_avx_float_max_masked_partial_ex :
  let xs := map (mkw 4) [0x7fc00000; 0x40000000; 0xbf800000; 0x7e800000; 0; 0; 0; 0] in let m := [false; true; true; false; false; false; false; true] in
  uval (y_max_masked true Float (ypack xs) (ymask_reg 4 m)) = 0x40000000.
Proof. vm_compute. reflexivity. Qed.

(** Finding: with a mask that is not full, min(mask) of entries that are all +infinity is the largest finite number,
    and max(mask) of entries all below the smallest positive normal number (for example negative ones) is that
    number. *)
Theorem C14_avx_float_masked_refuted :
  forall e (xs : list (elt e)) m, is_integer e = false -> length xs = (32 / esize e)%nat -> length m = length xs -> In false m ->
    ((forall x, In x (select_spec m xs) -> float_lt (largest_finite _) x = true) ->
      y_min_masked true e (ypack xs) (ymask_reg (esize e) m) = largest_finite _) /\
    ((forall x, In x (select_spec m xs) -> float_lt x (smallest_normal _) = true) ->
      y_max_masked true e (ypack xs) (ymask_reg (esize e) m) = smallest_normal _).
Proof. exact AvxVecMain.C14_avx_float_masked_refuted_main. Qed.
Print Assumptions C14_avx_float_masked_refuted.

Example C14_avx_float_masked_refuted_ex :
  (* all entries -1.0, one of them selected *)
  let xs := repeat (mkw 8 0xbff0000000000000) 4 in
  float_lt (mkw 8 0xbff0000000000000) (smallest_normal 8) = true /\
  uval (y_max_masked true Double (ypack xs) (ymask_reg 8 [true; false; false; false])) = 0x0010000000000000.
Proof. split; vm_compute; reflexivity. Qed.

(** Finding: <Vc/Vc> does not include <Vc/limits>, and <Vc/limits> does not cover SSE::float_v and SSE::double_v in AVX
    builds.  In these cases std::numeric_limits<V>::max() and min() are zero vectors (the default of the standard
    library): with a mask that is not full, min(mask) of positive entries is 0 and max(mask) of negative entries
    is 0. *)
Theorem C14_float_masked_without_limits_refuted :
  forall e m, is_integer e = false -> In false m ->
    (forall xs : list (elt e), length xs = (32 / esize e)%nat -> length m = length xs ->
      ((forall x, In x (select_spec m xs) -> float_lt (w0 _) x = true) -> y_min_masked false e (ypack xs) (ymask_reg (esize e) m) = w0 _) /\
      ((forall x, In x (select_spec m xs) -> float_lt x (w0 _) = true) -> y_max_masked false e (ypack xs) (ymask_reg (esize e) m) = w0 _)) /\
    (forall xs : list (elt e), length xs = (16 / esize e)%nat -> length m = length xs ->
      ((forall x, In x (select_spec m xs) -> float_lt (w0 _) x = true) -> v_min_masked_default e (pack xs) (mask_reg (esize e) m) = w0 _) /\
      ((forall x, In x (select_spec m xs) -> float_lt x (w0 _) = true) -> v_max_masked_default e (pack xs) (mask_reg (esize e) m) = w0 _)).
Proof. exact AvxVecMain.C14_float_masked_without_limits_refuted_main. Qed.
Print Assumptions C14_float_masked_without_limits_refuted.

Example C14_float_masked_without_limits_refuted_ex :
  (* all entries 1.0f, one of them selected *)
  let xs := repeat (mkw 4 0x3f800000) 8 in
  uval (y_min_masked false Float (ypack xs) (ymask_reg 4 [true; false; false; false; false; false; false; false])) = 0.
Proof. vm_compute. reflexivity. Qed.

(** C14 for float_v and double_v where std::numeric_limits<V> is the default: min(mask) is right if some selected entry
    is negative, max(mask) if some selected entry is positive (no selected entry NaN).  Missing: see the previous
    theorem. *)
Theorem C14_float_masked_without_limits_partial :
  forall e m, is_integer e = false ->
    (forall xs : list (elt e), length xs = (32 / esize e)%nat -> length m = length xs ->
      (forall x, In x (select_spec m xs) -> is_NaN x = false) ->
      ((exists x, In x (select_spec m xs) /\ float_lt x (w0 _) = true) ->
         least float_le (select_spec m xs) (y_min_masked false e (ypack xs) (ymask_reg (esize e) m))) /\
      ((exists x, In x (select_spec m xs) /\ float_lt (w0 _) x = true) ->
         greatest float_le (select_spec m xs) (y_max_masked false e (ypack xs) (ymask_reg (esize e) m)))) /\
    (forall xs : list (elt e), length xs = (16 / esize e)%nat -> length m = length xs ->
      (forall x, In x (select_spec m xs) -> is_NaN x = false) ->
      ((exists x, In x (select_spec m xs) /\ float_lt x (w0 _) = true) ->
         least float_le (select_spec m xs) (v_min_masked_default e (pack xs) (mask_reg (esize e) m))) /\
      ((exists x, In x (select_spec m xs) /\ float_lt (w0 _) x = true) ->
         greatest float_le (select_spec m xs) (v_max_masked_default e (pack xs) (mask_reg (esize e) m)))).
Proof. exact AvxVecMain.C14_float_masked_without_limits_partial_main. Qed.
Print Assumptions C14_float_masked_without_limits_partial.

Example C14_float_masked_without_limits_partial_ex :
  (* 1, -1, 2, -2; the first two selected *)
  let xs := map (mkw 8) [0x3ff0000000000000; 0xbff0000000000000; 0x4000000000000000; 0xc000000000000000] in
  uval (y_min_masked false Double (ypack xs) (ymask_reg 8 [true; true; false; false])) = 0xbff0000000000000.
Proof. vm_compute. reflexivity. Qed.

(** C15: where(k) | x = v in AVX and AVX2 builds, all six element types, every size. *)
Theorem C15_avx_masked_assign :
  forall avx2 e n (x v : sa (elt e)) (k : sa bool), let W := avx_widths_of avx2 e in
    wf W n x -> wf W n v -> wf W n k ->
    exists r, assign (avx_assign e) x v k = Some r /\ wf W n r /\
      to_list r = masked_update_spec (to_list k) (to_list v) (to_list x).
Proof. exact AvxVecMain.C15_avx_masked_assign_main. Qed.
Print Assumptions C15_avx_masked_assign.

Example C15_avx_masked_assign_ex : let W := avx_widths_of false Double in
  option_map (fun r => map uval (to_list r)) (assign (avx_assign Double) (generate W 7 (mkw 8)) (generate W 7 (fun i => mkw 8 (i + 100)))
    (generate W 7 Z.odd)) = Some [0; 101; 2; 103; 4; 105; 6].
Proof. vm_compute. reflexivity. Qed.

(** C15: iif(k, a, b) in AVX and AVX2 builds, all six element types, every size. *)
Theorem C15_avx_iif :
  forall avx2 e n (k : sa bool) (a b : sa (elt e)), let W := avx_widths_of avx2 e in
    wf W n k -> wf W n a -> wf W n b ->
    exists r, iif (avx_assign e) k a b = Some r /\ wf W n r /\
      to_list r = map3 (fun (m : bool) x y => if m then x else y) (to_list k) (to_list a) (to_list b).
Proof. exact AvxVecMain.C15_avx_iif_main. Qed.
Print Assumptions C15_avx_iif.

Example C15_avx_iif_ex : let W := avx_widths_of true Int in
  option_map (fun r => map uval (to_list r)) (iif (avx_assign Int) (generate W 9 Z.odd) (generate W 9 (mkw 4)) (generate W 9 (fun i => mkw 4 (i + 100))))
   = Some [100; 1; 102; 3; 104; 5; 106; 7; 108].
Proof. vm_compute. reflexivity. Qed.

(** C15: where(k) | x op= y in AVX and AVX2 builds, any lane operation, every size. *)
Theorem C15_avx_masked_op_assign :
  forall avx2 e (f : elt e -> elt e -> elt e) n (x y : sa (elt e)) (k : sa bool), let W := avx_widths_of avx2 e in
    wf W n x -> wf W n y -> wf W n k ->
    exists r, masked_op_assign (avx_assign e) f x y k = Some r /\ wf W n r /\
      to_list r = map3 (fun (b : bool) a c => if b then f a c else a) (to_list k) (to_list x) (to_list y).
Proof. exact AvxVecMain.C15_avx_masked_op_assign_main. Qed.
Print Assumptions C15_avx_masked_op_assign.

Example C15_avx_masked_op_assign_ex : let W := avx_widths_of true UInt in
  option_map (fun r => map uval (to_list r)) (masked_op_assign (avx_assign UInt) wmul (generate W 9 (mkw 4)) (generate W 9 (fun i => mkw 4 300))
    (generate W 9 Z.odd)) = Some [0; 300; 2; 900; 4; 1500; 6; 2100; 8].
Proof. vm_compute. reflexivity. Qed.

(** C15: where(k) | ++x and --x in AVX and AVX2 builds for the integer types, every size. *)
Theorem C15_avx_masked_increment :
  forall avx2 e n (x : sa (elt e)) (k : sa bool), is_integer e = true -> let W := avx_widths_of avx2 e in
    wf W n x -> wf W n k ->
    (exists r, masked_increment (avx_zero_inverted e) wadd (mkw _ 1) x k = Some r /\ wf W n r /\
      to_list r = map2 (fun (b : bool) a => if b then e_of e (e_val e a + 1) else a) (to_list k) (to_list x)) /\
    (exists r, masked_increment (avx_zero_inverted e) wsub (mkw _ 1) x k = Some r /\ wf W n r /\
      to_list r = map2 (fun (b : bool) a => if b then e_of e (e_val e a - 1) else a) (to_list k) (to_list x)).
Proof. exact AvxVecMain.C15_avx_masked_increment_main. Qed.
Print Assumptions C15_avx_masked_increment.

Example C15_avx_masked_increment_ex : let W := avx_widths_of true Int in
  option_map (fun r => map sval (to_list r)) (masked_increment (avx_zero_inverted Int) wadd (mkw 4 1) (generate W 9 (fun i => mkw 4 (2 ^ 31 - 1)))
    (generate W 9 Z.odd)) = Some [2147483647; -2147483648; 2147483647; -2147483648; 2147483647; -2147483648; 2147483647; -2147483648; 2147483647].
Proof. vm_compute. reflexivity. Qed.

(** C15: setZero(mask), setZeroInverted(mask) of all AVX vectors, and setQnan(mask) of the floating-point ones: the
    selected entries become zero (zero where not selected, NaN), the others keep every bit. *)
Theorem C15_avx_vector_set :
  forall e (xs : list (elt e)) m, length xs = (32 / esize e)%nat -> length m = length xs ->
    let R := ypack xs in let K := ymask_reg (esize e) m in
    y_set_zero R K = ypack (map2 (fun x (b : bool) => if b then w0 (esize e) else x) xs m) /\
    y_set_zero_inverted R K = ypack (map2 (fun x (b : bool) => if b then x else w0 (esize e)) xs m) /\
    (is_integer e = false -> exists ys : list (elt e), y_set_qnan R K = ypack ys /\ length ys = length xs /\
       forall i, (i < length xs)%nat ->
         if nth i m false then is_NaN (nth i ys (w0 _)) = true else nth i ys (w0 _) = nth i xs (w0 _)).
Proof. exact AvxVecMain.C15_avx_vector_set_main. Qed.
Print Assumptions C15_avx_vector_set.

Example C15_avx_vector_set_ex :
  map uval (ylanes 8 (y_set_qnan (ypack (tab 4 (fun i => mkw 8 (i + 1)))) (ymask_reg 8 [true; false; false; true]))) = [2 ^ 64 - 1; 2; 3; 2 ^ 64 - 1].
Proof. vm_compute. reflexivity. Qed.

(** C16: isFull, isEmpty, isNotEmpty, isMix, count, firstOne of SimdMaskArray<T, N> in AVX and AVX2 builds, every size. *)
Theorem C16_avx_mask_queries :
  forall avx2 ptest hw e n (m : sa bool), wf (avx_widths_of avx2 e) n m ->
    let K := avx_mask_ops ptest hw e in
    (is_full K m = true <-> forall b, In b (to_list m) -> b = true) /\
    (is_empty K m = true <-> forall b, In b (to_list m) -> b = false) /\
    (is_not_empty K m = true <-> exists b, In b (to_list m) /\ b = true) /\
    (is_mix K m = true <-> In true (to_list m) /\ In false (to_list m)) /\
    SimdArrayOps.count K m = count_spec (to_list m) /\
    (In true (to_list m) -> first_one_spec (to_list m) (first_one K m)).
Proof. exact AvxVecMain.C16_avx_mask_queries_main. Qed.
Print Assumptions C16_avx_mask_queries.

Example C16_avx_mask_queries_ex :
  let m := generate (avx_widths_of true Short) 27 (fun i => Z.eqb (i mod 5) 3) in let K := avx_mask_ops false false Short in
  (is_full K m, is_empty K m, is_mix K m, SimdArrayOps.count K m, first_one K m) = (false, false, true, 5, 3).
Proof. vm_compute. reflexivity. Qed.

(** C16: toInt() of SimdMaskArray<T, N>, N <= 31, and m == m', m != m' (every size) in AVX and AVX2 builds. *)
Theorem C16_avx_mask_to_int :
  forall avx2 ptest hw e n (m m' : sa bool), wf (avx_widths_of avx2 e) n m -> wf (avx_widths_of avx2 e) n m' ->
    let K := avx_mask_ops ptest hw e in
    ((n <= 31)%nat -> exists v, to_int K m = Some v /\ 0 <= v < 2 ^ Z.of_nat n /\
      forall i, 0 <= i < Z.of_nat n -> Z.testbit v i = znth false (to_list m) i) /\
    exists b, mask_eq K m m' = Some b /\ mask_neq K m m' = Some (negb b) /\ (b = true <-> to_list m = to_list m').
Proof. exact AvxVecMain.C16_avx_mask_to_int_main. Qed.
Print Assumptions C16_avx_mask_to_int.

Example C16_avx_mask_to_int_ex : to_int (avx_mask_ops false false Short) (generate (avx_widths_of true Short) 19 (fun i => Z.eqb (i mod 5) 3)) = Some 270600.
Proof. vm_compute. reflexivity. Qed.

(** C16: the queries of a single AVX mask (4, 8 or 16 entries), all register values a mask can have. *)
Theorem C16_avx_native_mask :
  forall hw e m, length m = (32 / esize e)%nat ->
    let w := esize e in let k := ymask_reg w m in
    (ym_full w k = true <-> forall b, In b m -> b = true) /\
    (ym_empty w k = true <-> forall b, In b m -> b = false) /\
    (ym_not_empty w k = true <-> In true m) /\
    (ym_mix w k = true <-> In true m /\ In false m) /\
    ym_count hw w k = count_spec m /\
    ym_to_int w k = to_int_spec m /\
    match ym_first w k with
    | Some i => 0 <= i < Z.of_nat (length m) /\ first_one_spec m i
    | None => forall b, In b m -> b = false
    end.
Proof. exact AvxVecMain.C16_avx_native_mask_main. Qed.
Print Assumptions C16_avx_native_mask.

Example C16_avx_native_mask_ex : ym_first 4 (ymask_reg 4 [false; false; true; false; true; true; false; false]) = Some 2.
Proof. vm_compute. reflexivity. Qed.

(** C17: construction from bool, generate, m[i] and setting m[i] of a single AVX mask. *)
Theorem C17_avx_mask_entries :
  forall e m (gen : Z -> bool) (b : bool) i, length m = (32 / esize e)%nat -> 0 <= i < Z.of_nat (32 / esize e) ->
    ym_broadcast b = ymask_reg (esize e) (repeat b (32 / esize e)) /\
    ym_generate (esize e) gen = ymask_reg (esize e) (tab (32 / esize e) gen) /\
    ym_get (esize e) (ymask_reg (esize e) m) i = znth false m i /\
    ym_set (esize e) (ymask_reg (esize e) m) i b = ymask_reg (esize e) (tab (32 / esize e) (fun j => if j =? i then b else znth false m j)).
Proof. exact AvxVecMain.C17_avx_mask_entries_main. Qed.
Print Assumptions C17_avx_mask_entries.

Example C17_avx_mask_entries_ex : ym_get 2 (ym_generate 2 (fun i => Z.even i)) 14 = true /\ ym_get 2 (ym_generate 2 Z.even) 13 = false.
Proof. split; vm_compute; reflexivity. Qed.

(** C17: !, &, |, ^ of single AVX masks. *)
Theorem C17_avx_mask_logic :
  forall e a b, length a = (32 / esize e)%nat -> length b = (32 / esize e)%nat ->
    let K := ymask_reg (esize e) in
    ym_not (K a) = K (map negb a) /\ ym_and (K a) (K b) = K (map2 andb a b) /\
    ym_or (K a) (K b) = K (map2 orb a b) /\ ym_xor (K a) (K b) = K (map2 xorb a b).
Proof. exact AvxVecMain.C17_avx_mask_logic_main. Qed.
Print Assumptions C17_avx_mask_logic.

Example C17_avx_mask_logic_ex : ym_to_int 8 (ym_xor (ymask_reg 8 [true; true; false; false]) (ymask_reg 8 [true; false; true; false])) = 6.
Proof. vm_compute. reflexivity. Qed.

(** C17: shifted(k) of a single AVX mask for all amounts whose byte count fits an int, if the cast in zeroExtend clears
    the upper half (as the code expects; see the next theorem). *)
Theorem C17_avx_mask_shifted :
  forall e m k, length m = (32 / esize e)%nat -> - 2 ^ 31 <= k * Z.of_nat (esize e) < 2 ^ 31 ->
    ym_shifted (repeat 0 16) (esize e) (ymask_reg (esize e) m) k = Some (ymask_reg (esize e) (shift_spec false m k)).
Proof. exact AvxVecMain.C17_avx_mask_shifted_main. Qed.
Print Assumptions C17_avx_mask_shifted.

Example C17_avx_mask_shifted_ex :
  option_map (ym_to_int 2) (ym_shifted (repeat 0 16) 2 (ymask_reg 2 (tab 16 Z.odd)) (-9)) = Some 0x5400.
Proof. vm_compute. reflexivity. Qed.

(** Finding: with GCC zeroExtend only casts, which leaves the upper half undefined: shifting a mask by at least half
    its size returns these bits as the upper half of the result. *)
Theorem C17_avx_mask_shifted_undefined_refuted :
  forall undef e m k, length undef = 16%nat -> length m = (32 / esize e)%nat -> 16 <= k * Z.of_nat (esize e) < 32 ->
    exists r, ym_shifted undef (esize e) (ymask_reg (esize e) m) k = Some r /\ hi128 r = undef.
Proof. exact AvxVecMain.C17_avx_mask_shifted_undefined_refuted_main. Qed.
Print Assumptions C17_avx_mask_shifted_undefined_refuted.

Example C17_avx_mask_shifted_undefined_refuted_ex :
  option_map (ym_to_int 4) (ym_shifted (repeat 255 16) 4 (ymask_reg 4 (repeat false 8)) 5) = Some 0xf0.
Proof. vm_compute. reflexivity. Qed.

(** C18: store of an AVX mask writes exactly one bool (0 or 1) per entry, and load reads them back. *)
Theorem C18_avx_mask_load_store :
  forall e m, length m = (32 / esize e)%nat ->
    ym_store (esize e) (ymask_reg (esize e) m) = map (fun b : bool => if b then 1 else 0) m /\
    ym_load (esize e) (map (fun b : bool => if b then 1 else 0) m) = ymask_reg (esize e) m.
Proof. exact AvxVecMain.C18_avx_mask_load_store_main. Qed.
Print Assumptions C18_avx_mask_load_store.

Example C18_avx_mask_load_store_ex : ym_store 4 (ymask_reg 4 [true; true; false; true; false; false; false; true]) = [1; 1; 0; 1; 0; 0; 0; 1].
Proof. vm_compute. reflexivity. Qed.

(** C19: converting an AVX mask to the AVX mask type of another element type keeps the common entries and sets the
    others to false, if the cast in zeroExtend clears the upper half; between AVX and SSE masks with 4 or 8
    entries likewise. *)
Theorem C19_avx_mask_cast :
  (forall e e' m, length m = (32 / esize e)%nat ->
    ymask_cast (repeat 0 16) (32 / esize e) (32 / esize e') (ymask_reg (esize e) m) = Some (ymask_reg (esize e') (cast_spec (32 / esize e') m))) /\
  (forall e e' m, length m = (32 / esize e)%nat -> esize e <> 2%nat -> esize e' <> 8%nat ->
    ymask_cast_128 (32 / esize e) (16 / esize e') (ymask_reg (esize e) m) = Some (mask_reg (esize e') (cast_spec (16 / esize e') m))) /\
  (forall e e' m, length m = (16 / esize e)%nat -> esize e <> 8%nat -> esize e' <> 2%nat ->
    mask_cast_256 (repeat 0 16) (16 / esize e) (32 / esize e') (mask_reg (esize e) m) = Some (ymask_reg (esize e') (cast_spec (32 / esize e') m))).
Proof. exact AvxVecMain.C19_avx_mask_cast_main. Qed.
Print Assumptions C19_avx_mask_cast.

Example C19_avx_mask_cast_ex :
  option_map (ym_to_int 2) (ymask_cast (repeat 0 16) 4 16 (ymask_reg 8 [true; false; true; true])) = Some 13.
Proof. vm_compute. reflexivity. Qed.

(** Finding: converting a mask with 4 or 8 entries to one with 16 entries leaves the upper 8 entries undefined with GCC
    (the same cast). *)
Theorem C19_avx_mask_cast_undefined_refuted :
  forall undef w m, length m = (32 / w)%nat -> w = 4%nat \/ w = 8%nat -> length undef = 16%nat ->
    exists r, ymask_cast undef (32 / w) 16 (ymask_reg w m) = Some r /\ hi128 r = undef.
Proof. exact AvxVecMain.C19_avx_mask_cast_undefined_refuted_main. Qed.
Print Assumptions C19_avx_mask_cast_undefined_refuted.

Example C19_avx_mask_cast_undefined_refuted_ex :
  option_map (ym_to_int 2) (ymask_cast (repeat 255 16) 8 16 (ymask_reg 4 (repeat false 8))) = Some 0xff00.
Proof. vm_compute. reflexivity. Qed.

(** C21: ==, !=, <, <=, >, >= of the AVX integer vectors compare the values of the entries (signed or unsigned). *)
Theorem C21_avx_compare :
  forall gcc e (xs ys : list (elt e)), is_integer e = true -> length xs = (32 / esize e)%nat -> length ys = (32 / esize e)%nat ->
    let R := ypack xs in let S := ypack ys in let val := e_val e in
    let K f := ymask_reg (esize e) (map2 f xs ys) in
    y_eq e R S = K (fun a b => val a =? val b) /\ y_ne e R S = K (fun a b => negb (val a =? val b)) /\
    y_lt e R S = K (fun a b => val a <? val b) /\ y_le e R S = K (fun a b => val a <=? val b) /\
    y_gt gcc e R S = K (fun a b => val b <? val a) /\ y_ge gcc e R S = K (fun a b => val b <=? val a).
Proof. exact AvxVecMain.C21_avx_compare_main. Qed.
Print Assumptions C21_avx_compare.

Example C21_avx_compare_ex :
  ym_to_int 4 (y_lt UInt (ypack (map (mkw 4) [1; 2 ^ 31; 5; 2 ^ 32 - 1; 0; 0; 0; 0])) (ypack (map (mkw 4) [2 ^ 31; 1; 5; 0; 0; 0; 0; 1]))) = 129 /\
  ym_to_int 4 (y_lt Int (ypack (map (mkw 4) [1; 2 ^ 31; 5; 2 ^ 32 - 1; 0; 0; 0; 0])) (ypack (map (mkw 4) [2 ^ 31; 1; 5; 0; 0; 0; 0; 1]))) = 138.
Proof. split; vm_compute; reflexivity. Qed.

(** C22: +, -, *, unary minus, ++, -- of the AVX integer vectors compute the mathematical result modulo 2^bits. *)
Theorem C22_avx_arithmetic :
  forall e (xs ys : list (elt e)), is_integer e = true -> length xs = (32 / esize e)%nat -> length ys = (32 / esize e)%nat ->
    let val := e_val e in
    y_add e (ypack xs) (ypack ys) = ypack (map2 (fun a b => e_of e (val a + val b)) xs ys) /\
    y_sub e (ypack xs) (ypack ys) = ypack (map2 (fun a b => e_of e (val a - val b)) xs ys) /\
    y_mul e (ypack xs) (ypack ys) = ypack (map2 (fun a b => e_of e (val a * val b)) xs ys) /\
    y_neg e (ypack xs) = ypack (map (fun a => e_of e (- val a)) xs) /\
    y_increment e (ypack xs) = ypack (map (fun a => e_of e (val a + 1)) xs) /\
    y_decrement e (ypack xs) = ypack (map (fun a => e_of e (val a - 1)) xs).
Proof. exact AvxVecMain.C22_avx_arithmetic_main. Qed.
Print Assumptions C22_avx_arithmetic.

Example C22_avx_arithmetic_ex :
  map sval (ylanes 4 (y_mul Int (ypack (map (mkw 4) [-3; 70000; 7; -1; 0; 1; 2; 3])) (ypack (map (mkw 4) [5; 70000; -7; -1; 0; 1; 2; 3])))) = [-15; 605032704; -49; 1; 0; 1; 4; 9].
Proof. vm_compute. reflexivity. Qed.

(** C22: min(a, b) and max(a, b) of the AVX integer vectors. *)
Theorem C22_avx_min_max :
  forall e (xs ys : list (elt e)), is_integer e = true -> length xs = (32 / esize e)%nat -> length ys = (32 / esize e)%nat ->
    map (e_val e) (ylanes (esize e) (y_min e (ypack xs) (ypack ys))) = map2 Z.min (map (e_val e) xs) (map (e_val e) ys) /\
    map (e_val e) (ylanes (esize e) (y_max e (ypack xs) (ypack ys))) = map2 Z.max (map (e_val e) xs) (map (e_val e) ys).
Proof. exact AvxVecMain.C22_avx_min_max_main. Qed.
Print Assumptions C22_avx_min_max.

Example C22_avx_min_max_ex :
  map uval (ylanes 4 (y_min UInt (ypack (map (mkw 4) [1; 2 ^ 31; 3; 4; 5; 6; 7; 8])) (ypack (map (mkw 4) [2; 1; 65535; 0; 5; 6; 7; 9])))) = [1; 1; 3; 0; 5; 6; 7; 8].
Proof. vm_compute. reflexivity. Qed.

(** C22: x << k and x >> k of the AVX integer vectors by any int k >= 0, also at least the number of bits: multiplication
    by 2^k modulo 2^bits, and division by 2^k rounding down (arithmetic for signed types). *)
Theorem C22_avx_shift :
  forall e (xs : list (elt e)) k, is_integer e = true -> length xs = (32 / esize e)%nat -> 0 <= k < 2 ^ 31 ->
    y_shl e (ypack xs) k = ypack (map (fun a => e_of e (e_val e a * 2 ^ k)) xs) /\
    y_shr e (ypack xs) k = ypack (map (fun a => e_of e (e_val e a / 2 ^ k)) xs).
Proof. exact AvxVecMain.C22_avx_shift_main. Qed.
Print Assumptions C22_avx_shift.

Example C22_avx_shift_ex : map sval (ylanes 4 (y_shr Int (ypack (map (mkw 4) [-7; 7; 1; -1; 100; -100; 0; 5])) 1)) = [-4; 3; 0; -1; 50; -50; 0; 2] /\
  map sval (ylanes 4 (y_shr Int (ypack (map (mkw 4) [-7; 7; 1; -1; 100; -100; 0; 5])) 77)) = [-1; 0; 0; -1; 0; -1; 0; 0].
Proof. split; vm_compute; reflexivity. Qed.

(** C22: x << y and x >> y of the AVX integer vectors with a shift count from 0 to 31 in every entry (for the 16-bit
    types also counts of 16 and more: the entries are promoted to int). *)
Theorem C22_avx_shift_vector :
  forall e (xs cs : list (elt e)), is_integer e = true -> length xs = (32 / esize e)%nat -> length cs = (32 / esize e)%nat ->
    (forall c, In c cs -> 0 <= e_val e c < 32) ->
    y_shlv e (ypack xs) (ypack cs) = Some (ypack (map2 (fun a c => e_of e (e_val e a * 2 ^ e_val e c)) xs cs)) /\
    y_shrv e (ypack xs) (ypack cs) = Some (ypack (map2 (fun a c => e_of e (e_val e a / 2 ^ e_val e c)) xs cs)).
Proof. exact AvxVecMain.C22_avx_shift_vector_main. Qed.
Print Assumptions C22_avx_shift_vector.

Example C22_avx_shift_vector_ex :
  option_map (fun r => map sval (ylanes 2 r)) (y_shrv Short (ypack (map (mkw 2) [-7; 7; 1; -1; 100; -100; 0; 5; -7; 7; 1; -1; 100; -100; 0; 5])) (ypack (tab 16 (mkw 2))))
    = Some [-7; 3; 0; -1; 6; -4; 0; 0; -1; 0; 0; -1; 0; -1; 0; 0].
Proof. vm_compute. reflexivity. Qed.

(** C22: abs of the AVX short_v and int_v: |x| modulo 2^bits; abs of the unsigned ones returns the argument. *)
Theorem C22_avx_abs :
  forall e (xs : list (elt e)), is_integer e = true -> length xs = (32 / esize e)%nat ->
    y_abs e (ypack xs) = ypack (map (fun a => e_of e (Z.abs (e_val e a))) xs).
Proof. exact AvxVecMain.C22_avx_abs_main. Qed.
Print Assumptions C22_avx_abs.

Example C22_avx_abs_ex : map sval (ylanes 4 (y_abs Int (ypack (map (mkw 4) [-7; 7; 0; 2 ^ 31; 1; -1; 2; -2])))) = [7; 7; 0; -2147483648; 1; 1; 2; 2].
Proof. vm_compute. reflexivity. Qed.

(** C22: unary minus of the AVX float_v and double_v negates the value exactly, flips the sign (also of zeros) and keeps
    NaNs. *)
Theorem C22_avx_float_negate :
  forall e (xs : list (elt e)), is_integer e = false -> length xs = (32 / esize e)%nat ->
    exists ys : list (elt e), y_neg e (ypack xs) = ypack ys /\ map fvalue ys = map (fun x => - fvalue x) xs /\
      map sign_bit ys = map (fun x => negb (sign_bit x)) xs /\ map is_NaN ys = map is_NaN xs.
Proof. exact AvxVecMain.C22_avx_float_negate_main. Qed.
Print Assumptions C22_avx_float_negate.

Example C22_avx_float_negate_ex : map uval (ylanes 4 (y_neg Float (ypack (map (mkw 4) [0x3f800000; 0; 0x80000000; 0xc0000000; 0; 0; 0; 1])))) =
  [0xbf800000; 0x80000000; 0; 0x40000000; 0x80000000; 0x80000000; 0x80000000; 0x80000001].
Proof. vm_compute. reflexivity. Qed.

(** C39: ==, !=, <, <=, >, >= of the AVX float_v and double_v follow IEEE-754 in GCC builds, for all bit patterns including
    NaN, infinities and signed zeros; ==, !=, < and <= in all builds. *)
Theorem C39_avx_float_compare :
  forall gcc e (xs ys : list (elt e)), is_integer e = false -> length xs = (32 / esize e)%nat -> length ys = (32 / esize e)%nat ->
    let R := ypack xs in let S := ypack ys in let K f := ymask_reg (esize e) (map2 f xs ys) in
    y_eq e R S = K float_eq /\ y_ne e R S = K (fun a b => negb (float_eq a b)) /\
    y_lt e R S = K float_lt /\ y_le e R S = K float_le /\
    (gcc = true -> y_gt gcc e R S = K (fun a b => float_lt b a) /\ y_ge gcc e R S = K (fun a b => float_le b a)).
Proof. exact AvxVecMain.C39_avx_float_compare_main. Qed.
Print Assumptions C39_avx_float_compare.

Example C39_avx_float_compare_ex :
  (* -0 == +0, NaN == NaN *)
  ym_to_int 8 (y_eq Double (ypack (map (mkw 8) [0x8000000000000000; 0x7ff8000000000000; 0; 0])) (ypack (map (mkw 8) [0; 0x7ff8000000000000; 1; 1]))) = 1.
Proof. vm_compute. reflexivity. Qed.

(** Finding: with other compilers than GCC, > is computed with the predicate "not less or equal" and >= with "not less":
    both are true wherever an operand is NaN. *)
Theorem C39_avx_float_gt_refuted :
  forall e (xs ys : list (elt e)), is_integer e = false -> length xs = (32 / esize e)%nat -> length ys = (32 / esize e)%nat ->
    forall i, (i < 32 / esize e)%nat -> is_NaN (nth i xs (w0 _)) || is_NaN (nth i ys (w0 _)) = true ->
    nth i (ylanes (esize e) (y_gt false e (ypack xs) (ypack ys))) (w0 _) = wmask _ true /\
    nth i (ylanes (esize e) (y_ge false e (ypack xs) (ypack ys))) (w0 _) = wmask _ true /\
    float_lt (nth i ys (w0 _)) (nth i xs (w0 _)) = false /\ float_le (nth i ys (w0 _)) (nth i xs (w0 _)) = false.
Proof. exact AvxVecMain.C39_avx_float_gt_refuted_main. Qed.
Print Assumptions C39_avx_float_gt_refuted.

Example C39_avx_float_gt_refuted_ex : is_NaN (a_nan 4) = true /\ ym_to_int 4 (y_gt false Float (ypack (repeat (a_nan 4) 8)) (ypack (repeat (a_nan 4) 8))) = 255.
Proof. split; vm_compute; reflexivity. Qed.

(** C49: minIndex() and maxIndex() of the AVX integer vectors return the minimum (maximum) in all entries and the position
    of its first occurrence. *)
Theorem C49_min_max_index :
  forall e (xs : list (elt e)), is_integer e = true -> length xs = (32 / esize e)%nat ->
    (exists i, y_min_index e (ypack xs) = (ypack (repeat (znth (w0 _) xs i) (32 / esize e)), Some i) /\
      0 <= i < Z.of_nat (length xs) /\ (forall x, In x xs -> e_val e (znth (w0 _) xs i) <= e_val e x) /\
      forall j, 0 <= j < i -> e_val e (znth (w0 _) xs i) < e_val e (znth (w0 _) xs j)) /\
    (exists i, y_max_index e (ypack xs) = (ypack (repeat (znth (w0 _) xs i) (32 / esize e)), Some i) /\
      0 <= i < Z.of_nat (length xs) /\ (forall x, In x xs -> e_val e x <= e_val e (znth (w0 _) xs i)) /\
      forall j, 0 <= j < i -> e_val e (znth (w0 _) xs j) < e_val e (znth (w0 _) xs i)).
Proof. exact AvxVecMain.C49_min_max_index_main. Qed.
Print Assumptions C49_min_max_index.

Example C49_min_max_index_ex :
  snd (y_min_index Int (ypack (map (mkw 4) [5; 3; -2; 9; -2; 9; 0; 1]))) = Some 2 /\
  snd (y_max_index UInt (ypack (map (mkw 4) [5; 3; -2; 9; -2; 9; 0; 1]))) = Some 2.
Proof. split; vm_compute; reflexivity. Qed.

(** Finding: minIndex() of the AVX float_v returns the bit pattern of the position as a float (0, 0x3f800000 for 1, ...,
    0x40e00000 for 7) instead of the position: it is only right if entry 0 is a minimum. *)
Theorem C49_float_min_index_refuted :
  forall xs : list (word 4), length xs = 8%nat -> (forall x, In x xs -> is_NaN x = false) ->
    exists i, (i < 8)%nat /\ least float_le xs (nth i xs (w0 4)) /\
      snd (y_float_min_index (ypack xs)) =
        nth i [0; 0x3f800000; 0x40000000; 0x40400000; 0x40800000; 0x40a00000; 0x40c00000; 0x40e00000] 0.
Proof. exact AvxVecMain.C49_float_min_index_refuted_main. Qed.
Print Assumptions C49_float_min_index_refuted.

Example C49_float_min_index_refuted_ex :
  (* 2, 1, 2, 2, 2, 2, 2, 2: the minimum is at position 1 *)
  snd (y_float_min_index (ypack (map (mkw 4) [0x40000000; 0x3f800000; 0x40000000; 0x40000000; 0x40000000; 0x40000000; 0x40000000; 0x40000000]))) = 1065353216.
Proof. vm_compute. reflexivity. Qed.
