(** floating-point programs give the same results in every build *)
From Coq Require Import ZArith List Bool Lia Permutation.
From Verif.Spec Require Import Seq FloatSpec RoundSpec MaskSpec VectorSpec NativeSpec PortableSpec PortableFpSpec.
From Verif.Model Require Import Word Fp FpArith SseBuild SimdArray Mem MaskedDiv Program Portable PortableFp.
Import ListNotations.
Local Open Scope Z_scope.
From Verif.Proof Require PortableFpMain.

(** A program that calls the operations of SimdArray<float, N> or SimdArray<double, N> and of its masks, with any other code
between the calls, and whose behaviour is defined when the operations act entry by entry as IEEE-754 says, has exactly that
behaviour in every build: the same memory, the same values of all other variables and the same bits in all entries of all
vectors and masks.  Missing: the bitwise operators and the masked reductions. *)
Theorem C83_fp_portable_partial :
  forall b e n H (p : prog (elt e) H) fuel m h s, is_integer e = false -> (1 <= n)%nat ->
    run (fp_reference e n) fuel p (start (repeat (w0 _) n) (repeat false n) m h) = Some s ->
    exists s', run (fp_implementation b e n) fuel p (start (b_zero b e n) (b_none b e n) m h) = Some s' /\
      hs s' = hs s /\ (forall a, mm s' a = mm s a) /\
      (forall i, to_list (vr s' i) = vr s i) /\ (forall i, to_list (mr s' i) = mr s i).
Proof. exact PortableFpMain.C83_fp_portable_partial_main. Qed.
Print Assumptions C83_fp_portable_partial.

Example C83_fp_portable_partial_ex :
  let e := Float in let n := 5%nat in let f (z : Z) : elt e := of_int 4 z in
  (* for (i = 0; i < 10; i += 5) { x.load(p + i); y = x / 4; where(y >= x) | y = -x; y.store(p + i); acc = max(acc, y.max()); } *)
  let body := PSeq (PDo (ILoad 0 (fun h : Z * Z => fst h))) (PSeq (PDo (IGenerate 2 (fun _ _ => f 4))) (PSeq (PDo (IArith ODiv 1 0 2))
    (PSeq (PDo (ICompare OGe 0 1 0)) (PSeq (PDo (INegate 2 0)) (PSeq (PDo (IAssign 1 2 0)) (PSeq (PDo (IStore 1 (fun h => fst h)))
    (PDo (IReduce RMax 1 (fun a h => (fst h + 5, Z.max (snd h) (fvalue a)))))))))))  in
  let m : memory (elt e) := fun a => if (0 <=? a) && (a <? 10) then Some (f (4 * a - 10)) else None in
  option_map (fun s => (fst (hs s), snd (hs s) / 2 ^ 148, map (fun a => option_map uval (mm s (Z.of_nat a))) (seq 0 11)))
    (run (fp_reference e n) 40 (PWhile (fun h => fst h <? 10) body) (start (repeat (w0 _) n) (repeat false n) m (0, 0)))
  = Some (10, 20, map Some [0x41200000; 0x40c00000; 0x40000000; 0x3f000000; 0x3fc00000; 0x40200000; 0x40600000; 0x40900000; 0x40b00000; 0x40d00000] ++ [None]).
Proof.
  vm_compute. reflexivity.
Qed.

(** Two builds: the same program leaves the same memory, the same variables and the same entries of vectors and masks. *)
Theorem C83_fp_builds_agree_partial :
  forall b b' e n H (p : prog (elt e) H) fuel m h, is_integer e = false -> (1 <= n)%nat ->
    run (fp_reference e n) fuel p (start (repeat (w0 _) n) (repeat false n) m h) <> None ->
    exists s s', run (fp_implementation b e n) fuel p (start (b_zero b e n) (b_none b e n) m h) = Some s /\
      run (fp_implementation b' e n) fuel p (start (b_zero b' e n) (b_none b' e n) m h) = Some s' /\
      hs s = hs s' /\ (forall a, mm s a = mm s' a) /\
      (forall i, to_list (vr s i) = to_list (vr s' i)) /\ (forall i, to_list (mr s i) = to_list (mr s' i)).
Proof. exact PortableFpMain.C83_fp_builds_agree_partial_main. Qed.
Print Assumptions C83_fp_builds_agree_partial.

Example C83_fp_builds_agree_partial_ex :
  let b := {| b_impl := DScalar; b_ssse3 := false; b_ptest := false; b_popcnt := false; b_constant := false |} in
  let b' := {| b_impl := DAvx false false; b_ssse3 := true; b_ptest := true; b_popcnt := true; b_constant := true |} in
  let p := PSeq (PDo (IGenerate 0 (fun (_ : Z) i => of_int 8 (7 - 3 * i)))) (PSeq (PDo (IMove (fun _ => MReverse) 1 0)) (PSeq (PDo (IArith ODiv 2 0 1))
    (PSeq (PDo (ITest TNegative 0 2)) (PSeq (PDo (ICopysign 1 0 2)) (PSeq (PDo (IAssign 2 1 0)) (PDo (IReduce RSum 2 (fun (a : elt Double) _ => uval a)))))))) in
  let m : memory (elt Double) := fun _ => None in
  (* x = {7, 4, ..., -8}; y = x / x.reversed(); where(isnegative(y)) | y = copysign(x, y); y.sum() *)
  (option_map hs (run (fp_reference Double 6) 10 p (start (repeat (w0 _) 6) (repeat false 6) m 0)),
   option_map hs (run (fp_implementation b Double 6) 10 p (start (b_zero b Double 6) (b_none b Double 6) m 0)),
   option_map hs (run (fp_implementation b' Double 6) 10 p (start (b_zero b' Double 6) (b_none b' Double 6) m 0))) = (Some 0xc03b000000000000, Some 0xc03b000000000000, Some 0xc03b000000000000).
Proof.
  vm_compute. reflexivity.
Qed.

(** Where the reference leaves a result open the builds differ.  The sum of 2^24, 1, 1, 0 is 2^24 + 2; the Scalar build adds
(2^24 + 1) + (1 + 0) and the SSE build (2^24 + 0) + (1 + 1). *)
Theorem C83_sum_refuted :
  exists (b b' : build) (p : prog (elt Float) Z) (s s' : state (elt Float) Z (sa (elt Float)) (sa bool)), let m : memory (elt Float) := fun _ => None in
    run (fp_implementation b Float 4) 10 p (start (b_zero b Float 4) (b_none b Float 4) m 0) = Some s /\ hs s = uval (of_int 4 (2 ^ 24)) /\
    run (fp_implementation b' Float 4) 10 p (start (b_zero b' Float 4) (b_none b' Float 4) m 0) = Some s' /\ hs s' = uval (of_int 4 (2 ^ 24 + 2)).
Proof. exact PortableFpMain.C83_sum_refuted_main. Qed.
Print Assumptions C83_sum_refuted.

(** A comparison with NaN: any_of(x >= x) for x = NaN is false in the Scalar build and true in the SSE build. *)
Theorem C83_nan_refuted :
  exists (b b' : build) (p : prog (elt Double) bool) (s s' : state (elt Double) bool (sa (elt Double)) (sa bool)), let m : memory (elt Double) := fun _ => None in
    run (fp_implementation b Double 2) 10 p (start (b_zero b Double 2) (b_none b Double 2) m true) = Some s /\ hs s = false /\
    run (fp_implementation b' Double 2) 10 p (start (b_zero b' Double 2) (b_none b' Double 2) m true) = Some s' /\ hs s' = true.
Proof. exact PortableFpMain.C83_nan_refuted_main. Qed.
Print Assumptions C83_nan_refuted.

(** min() and max() of a SimdArray<float, N> or SimdArray<double, N> of every size without NaN, in every build, are a least and a
greatest entry. *)
Theorem C13_array_float_min_max :
  forall b e n (t : sa (elt e)), is_integer e = false -> wf (b_native b e) n t -> (forall x, In x (to_list t) -> is_NaN x = false) ->
    exists lo hi, b_freduce b e RMin t = Some lo /\ least float_le (to_list t) lo /\
      b_freduce b e RMax t = Some hi /\ greatest float_le (to_list t) hi.
Proof. exact PortableFpMain.C13_array_float_min_max_main. Qed.
Print Assumptions C13_array_float_min_max.

Example C13_array_float_min_max_ex :
  let b := {| b_impl := DAvx false true; b_ssse3 := true; b_ptest := true; b_popcnt := true; b_constant := true |} in
  let t := generate (b_native b Float) 13 (fun i => of_int 4 (7 - (i - 6) * (i - 6))) in
  option_map uval (b_freduce b Float RMin t) = Some (uval (of_int 4 (-29))) /\ option_map uval (b_freduce b Float RMax t) = Some (uval (of_int 4 7)).
Proof.
  vm_compute. split; reflexivity.
Qed.

(** product() of a SimdArray<float, N> or SimdArray<double, N> of every size, in every build, is the exact product of the entries if
they are integers and no product of some of them exceeds 2^24 (float) or 2^53 (double). *)
Theorem C13_array_float_product :
  forall b e n (t : sa (elt e)), is_integer e = false -> wf (b_native b e) n t -> products_exact (to_list t) = true ->
    exists r, b_freduce b e RProduct t = Some r /\ is_Finite r = true /\
      fvalue r = fone (esize e) * fold_right (fun x p => fvalue x / fone (esize e) * p) 1 (to_list t).
Proof. exact PortableFpMain.C13_array_float_product_main. Qed.
Print Assumptions C13_array_float_product.

Example C13_array_float_product_ex :
  let b := {| b_impl := DAvx false true; b_ssse3 := true; b_ptest := true; b_popcnt := true; b_constant := true |} in
  let t := generate (b_native b Float) 13 (fun i => of_int 4 (nth (Z.to_nat i) [1; -2; 3; 1; 4; -1; 1; 5; 1; -1; 2; 1; 7] 0)) in
  products_exact (to_list t) = true /\ option_map uval (b_freduce b Float RProduct t) = Some (uval (of_int 4 (-1680))).
Proof.
  vm_compute. split; reflexivity.
Qed.

(** sum() of a SimdArray<float, N> or SimdArray<double, N> of every size, in every build, is the exact sum of the entries if no sum
of some of the entries needs rounding (for example if the entries are integers whose absolute values add up to less than 2^24 or
2^53). *)
Theorem C13_array_float_sum :
  forall b e n (t : sa (elt e)), is_integer e = false -> wf (b_native b e) n t -> sums_exact (to_list t) = true ->
    exists r, b_freduce b e RSum t = Some r /\ is_Finite r = true /\ fvalue r = fold_right (fun x s => fvalue x + s) 0 (to_list t).
Proof. exact PortableFpMain.C13_array_float_sum_main. Qed.
Print Assumptions C13_array_float_sum.

Example C13_array_float_sum_ex :
  let b := {| b_impl := DAvx false true; b_ssse3 := true; b_ptest := true; b_popcnt := true; b_constant := true |} in
  let t := generate (b_native b Float) 13 (fun i => of_int 4 (7 - (i - 6) * (i - 6))) in
  sums_exact (to_list t) = true /\ option_map uval (b_freduce b Float RSum t) = Some (uval (of_int 4 (-91))).
Proof.
  vm_compute. split; reflexivity.
Qed.

(** sum(mask) of a SimdArray<float, N> or SimdArray<double, N> of every size, in every build, is the exact sum of the selected entries
(0 if there are none), if no sum of some of them needs rounding and none of them is a negative zero. *)
Theorem C14_array_float_masked_sum :
  forall b e n (t : sa (elt e)) k, is_integer e = false -> wf (b_native b e) n t -> wf (b_native b e) n k ->
    sums_exact (select_spec (to_list k) (to_list t)) = true ->
    (forall x, In x (select_spec (to_list k) (to_list t)) -> sign_bit x = true -> fvalue x <> 0) ->
    exists r, o_reduce_mask (fp_implementation b e n) RSum t k = Some r /\ is_Finite r = true /\
      fvalue r = fold_right (fun x s => fvalue x + s) 0 (select_spec (to_list k) (to_list t)).
Proof. exact PortableFpMain.C14_array_float_masked_sum_main. Qed.
Print Assumptions C14_array_float_masked_sum.

Example C14_array_float_masked_sum_ex :
  let b := {| b_impl := DAvx false true; b_ssse3 := true; b_ptest := true; b_popcnt := true; b_constant := true |} in
  let t := generate (b_native b Float) 13 (fun i => of_int 4 (7 - (i - 6) * (i - 6))) in
  let k := generate (b_native b Float) 13 (fun i => (i mod 3 =? 1) || (i =? 9)) in
  sums_exact (select_spec (to_list k) (to_list t)) = true /\
  existsb (fun x => sign_bit x && (fvalue x =? 0)) (select_spec (to_list k) (to_list t)) = false /\
  option_map uval (o_reduce_mask (fp_implementation b Float 13) RSum t k) = Some (uval (of_int 4 (-20))).
Proof.
  vm_compute. repeat split; reflexivity.
Qed.

(** product(mask) of a SimdArray<float, N> or SimdArray<double, N> of every size, in every build, is the exact product of the selected
entries (1 if there are none), if these are integers and no product of some of them exceeds 2^24 (float) or 2^53 (double). *)
Theorem C14_array_float_masked_product :
  forall b e n (t : sa (elt e)) k, is_integer e = false -> wf (b_native b e) n t -> wf (b_native b e) n k ->
    products_exact (select_spec (to_list k) (to_list t)) = true ->
    exists r, o_reduce_mask (fp_implementation b e n) RProduct t k = Some r /\ is_Finite r = true /\
      fvalue r = fone (esize e) * fold_right (fun x p => fvalue x / fone (esize e) * p) 1 (select_spec (to_list k) (to_list t)).
Proof. exact PortableFpMain.C14_array_float_masked_product_main. Qed.
Print Assumptions C14_array_float_masked_product.

Example C14_array_float_masked_product_ex :
  let b := {| b_impl := DAvx false true; b_ssse3 := true; b_ptest := true; b_popcnt := true; b_constant := true |} in
  let t := generate (b_native b Float) 13 (fun i => of_int 4 (7 - (i - 6) * (i - 6))) in
  let k := generate (b_native b Float) 13 (fun i => (i mod 3 =? 1) || (i =? 9)) in
  products_exact (select_spec (to_list k) (to_list t)) = true /\
  option_map uval (o_reduce_mask (fp_implementation b Float 13) RProduct t k) = Some (uval (of_int 4 (-5832))).
Proof.
  vm_compute. repeat split; reflexivity.
Qed.

(** partialSum() of a SimdArray<float, N> or SimdArray<double, N> of every size, in every build: entry i is the exact sum of entries
0 to i, if no sum of some of the entries needs rounding and no entry is a negative zero. *)
Theorem C12_array_float_partial_sum :
  forall b e n (t : sa (elt e)), is_integer e = false -> wf (b_native b e) n t -> sums_exact (to_list t) = true ->
    (forall x, In x (to_list t) -> sign_bit x = true -> fvalue x <> 0) ->
    exists r, b_fpartial_sum b e t = Some r /\ wf (b_native b e) n r /\
      forall i, (i < n)%nat -> is_Finite (nth i (to_list r) (w0 _)) = true /\
        fvalue (nth i (to_list r) (w0 _)) = fold_right (fun x s => fvalue x + s) 0 (firstn (S i) (to_list t)).
Proof. exact PortableFpMain.C12_array_float_partial_sum_main. Qed.
Print Assumptions C12_array_float_partial_sum.

Example C12_array_float_partial_sum_ex :
  let b := {| b_impl := DAvx false true; b_ssse3 := true; b_ptest := true; b_popcnt := true; b_constant := true |} in
  let t := generate (b_native b Float) 13 (fun i => of_int 4 (7 - (i - 6) * (i - 6))) in
  sums_exact (to_list t) = true /\ existsb (fun x => sign_bit x && (fvalue x =? 0)) (to_list t) = false /\
  option_map (fun r => map uval (skipn 10 (to_list r))) (b_fpartial_sum b Float t) = Some (map (fun z => uval (of_int 4 z)) [-44; -62; -91]).
Proof.
  vm_compute. repeat split; reflexivity.
Qed.

(** The condition on negative zeros is needed: partialSum() of an array that starts with -0.0 starts with -0.0 in the Scalar build and
with 0.0 in the SSE build, which adds the 0.0 that shifted() moves in. *)
Theorem C12_negative_zero_refuted :
  exists (b b' : build) (f : Z -> elt Float) r r', let t := generate (b_native b Float) 4 f in let t' := generate (b_native b' Float) 4 f in
    b_fpartial_sum b Float t = Some r /\ b_fpartial_sum b' Float t' = Some r' /\ to_list t = to_list t' /\ sums_exact (to_list t) = true /\
    map uval (to_list r) = [2 ^ 31; 0; 0; 0] /\ map uval (to_list r') = [0; 0; 0; 0].
Proof. exact PortableFpMain.C12_negative_zero_refuted_main. Qed.
Print Assumptions C12_negative_zero_refuted.

Example C12_negative_zero_refuted_ex :
  let b := {| b_impl := DAvx false true; b_ssse3 := true; b_ptest := true; b_popcnt := true; b_constant := true |} in
  option_map (fun r => map uval (to_list r)) (b_fpartial_sum b Float (generate (b_native b Float) 3 (fun i => if i =? 0 then mkw 4 (2 ^ 31) else of_int 4 i)))
  = Some [2 ^ 31; uval (of_int 4 1); uval (of_int 4 3)].
Proof.
  vm_compute. reflexivity.
Qed.

(** sorted() of a SimdArray<float, N> or SimdArray<double, N> of every size without NaN, in every build: the entries are in
non-decreasing order and every number appears as often as in the array; every entry of the result is an entry of the array
(with both 0.0 and -0.0 among the entries, one zero may take the place of the other: C11_sorted_zeros_refuted); without zeros
of both signs the result is the array in another order, bit for bit. *)
Theorem C11_array_sorted_float :
  forall b e n (t : sa (elt e)), is_integer e = false -> wf (b_native b e) n t -> (forall x, In x (to_list t) -> is_NaN x = false) ->
    exists r, b_fsorted b e t = Some r /\ wf (b_native b e) n r /\ sorted_spec float_le (to_list r) /\
      Permutation (map fvalue (to_list r)) (map fvalue (to_list t)) /\ incl (to_list r) (to_list t) /\
      ((forall x y, In x (to_list t) -> In y (to_list t) -> two_zeros x y = false) -> Permutation (to_list r) (to_list t)).
Proof. exact PortableFpMain.C11_array_sorted_float_main. Qed.
Print Assumptions C11_array_sorted_float.

Example C11_array_sorted_float_ex :
  let b := {| b_impl := DAvx false true; b_ssse3 := true; b_ptest := true; b_popcnt := true; b_constant := true |} in
  let t := generate (b_native b Float) 11 (fun i => of_int 4 (5 - i * 4 mod 11)) in
  option_map (fun r => map uval (to_list r)) (b_fsorted b Float t) = Some (map (fun i => uval (of_int 4 i)) [-5; -4; -3; -2; -1; 0; 1; 2; 3; 4; 5]).
Proof.
  vm_compute. reflexivity.
Qed.
