(** shuffle helpers and transposes *)
From Coq Require Import ZArith List Bool Lia.
From Verif.Spec Require Import Seq NativeSpec MaskSpec ShuffleSpec.
From Verif.Model Require Import Word SseReg SseMove SimdArray SimdArrayOps ScalarVec Mem SseInt SseMask SseMath Shuffle.
Import ListNotations.
Local Open Scope Z_scope.
From Verif.Proof Require ShuffleMain.

(** C44: for all template arguments that pass the static_asserts and all register contents, Mem::shuffle of float and
32-bit integer registers (four positions) and of double registers (two positions) consists of the named entries, in
memory order; Reg::shuffle takes the same positions in reverse order. *)
Theorem C44_shuffle :
  (forall d0 d1 d2 d3 (x y : list (word 4)), length x = 4%nat -> length y = 4%nat ->
     (d0 <= 3 -> d1 <= 3 -> 8 <= d2 <= 11 -> 8 <= d3 <= 11 ->
     exists r, mem_shuffle4 8 d0 d1 d2 d3 (pack x) (pack y) = pack r /\
       reg_shuffle4 d3 d2 d1 d0 (pack x) (pack y) = pack r /\ picks x y [d0; d1; d2; d3] r)%nat) /\
  (forall d0 d1 (x y : list (word 8)), length x = 2%nat -> length y = 2%nat ->
     (d0 <= 1 -> 8 <= d1 <= 9 ->
     exists r, mem_shuffle2 8 d0 d1 (pack x) (pack y) = pack r /\
       reg_shuffle2 d1 d0 (pack x) (pack y) = pack r /\ picks x y [d0; d1] r)%nat).
Proof. exact ShuffleMain.C44_shuffle_main. Qed.
Print Assumptions C44_shuffle.

Example C44_shuffle_ex :
  map uval (lanes 4 (mem_shuffle4 8 3 0 10 8 (pack (map (mkw 4) [1; 2; 3; 4])) (pack (map (mkw 4) [5; 6; 7; 8])))) = [4; 1; 7; 5] /\
  picks [1; 2; 3; 4] [5; 6; 7; 8] [3; 0; 10; 8]%nat [4; 1; 7; 5].
Proof.
  split; vm_compute; reflexivity.
Qed.

(** C44: the same for the permutations of one register: float and 32-bit integer registers (Mem and Reg), permuteLo and
permuteHi (which keep the other half) and the permutation of all eight 16-bit entries. *)
Theorem C44_permute :
  (forall d0 d1 d2 d3 (x : list (word 4)), length x = 4%nat -> (d0 <= 3 -> d1 <= 3 -> d2 <= 3 -> d3 <= 3 ->
     exists r, mem_permute_ps 8 d0 d1 d2 d3 (pack x) = pack r /\ mem_permute_epi32 8 d0 d1 d2 d3 (pack x) = pack r /\
       reg_permute_epi32 d3 d2 d1 d0 (pack x) = pack r /\ picks x [] [d0; d1; d2; d3] r)%nat) /\
  (forall d0 d1 d2 d3 (x : list (word 2)), length x = 8%nat -> (d0 <= 3 -> d1 <= 3 -> d2 <= 3 -> d3 <= 3 ->
     exists r, mem_permuteLo 8 d0 d1 d2 d3 (pack x) = pack r /\ picks x [] [d0; d1; d2; d3; 4; 5; 6; 7] r)%nat) /\
  (forall d0 d1 d2 d3 (x : list (word 2)), length x = 8%nat -> (4 <= d0 <= 7 -> 4 <= d1 <= 7 -> 4 <= d2 <= 7 -> 4 <= d3 <= 7 ->
     exists r, mem_permuteHi 8 d0 d1 d2 d3 (pack x) = pack r /\ picks x [] [0; 1; 2; 3; d0; d1; d2; d3] r)%nat) /\
  (forall d0 d1 d2 d3 d4 d5 d6 d7 (x : list (word 2)), length x = 8%nat ->
     (d0 <= 3 -> d1 <= 3 -> d2 <= 3 -> d3 <= 3 -> 4 <= d4 <= 7 -> 4 <= d5 <= 7 -> 4 <= d6 <= 7 -> 4 <= d7 <= 7 ->
     exists r, mem_permute8 8 d0 d1 d2 d3 d4 d5 d6 d7 (pack x) = pack r /\ picks x [] [d0; d1; d2; d3; d4; d5; d6; d7] r)%nat).
Proof. exact ShuffleMain.C44_permute_main. Qed.
Print Assumptions C44_permute.

Example C44_permute_ex :
  map uval (lanes 2 (mem_permute8 8 3 3 0 1 7 4 4 5 (pack (map (mkw 2) [10; 11; 12; 13; 14; 15; 16; 17])))) = [13; 13; 10; 11; 17; 14; 14; 15].
Proof.
  vm_compute. reflexivity.
Qed.

(** C44: Mem::permute<Dst0, Dst1> of a double register gives the named first entry, and the second one when Dst1 is X0
(as in reversed()).  Missing: Dst1 = X1, which is wrong, see C44_permute_double_refuted. *)
Theorem C44_permute_double_partial :
  forall d0 (x : list (word 8)), length x = 2%nat -> (d0 <= 1)%nat ->
    exists r, mem_permute_pd 8 d0 0 (pack x) = pack r /\ picks x [] [d0; 0]%nat r.
Proof. exact ShuffleMain.C44_permute_double_partial_main. Qed.
Print Assumptions C44_permute_double_partial.

Example C44_permute_double_partial_ex :
  map uval (lanes 8 (mem_permute_pd 8 1 0 (pack (map (mkw 8) [5; 6])))) = [6; 5].
Proof.
  vm_compute. reflexivity.
Qed.

(** Finding: the immediate of Mem::permute<Dst0, Dst1>(__m128d) is Dst0 + Dst1 * 4 instead of Dst0 + Dst1 * 2, so the second
entry of the result is always the first entry of the operand; permute<X0, X1> is not the identity. *)
Theorem C44_permute_double_refuted :
  forall d0 d1 (x : list (word 8)), length x = 2%nat -> (d0 <= 1)%nat -> (d1 <= 1)%nat ->
    exists r, mem_permute_pd 8 d0 d1 (pack x) = pack r /\ picks x [] [d0; 0]%nat r /\
      (d1 = 1%nat -> nth 0 x (w0 8) <> nth 1 x (w0 8) -> ~ picks x [] [d0; d1] r).
Proof. exact ShuffleMain.C44_permute_double_refuted_main. Qed.
Print Assumptions C44_permute_double_refuted.

Example C44_permute_double_refuted_ex :
  map uval (lanes 8 (mem_permute_pd 8 0 1 (pack (map (mkw 8) [5; 6])))) = [5; 5].
Proof.
  vm_compute. reflexivity.
Qed.

(** C44: Mem::blend (and Reg::blend) of double, float and 16-bit registers, in SSE2 and SSE4.1 builds, takes entry i from
the named operand; in particular the SSE2 emulations never reach abort(). *)
Theorem C44_blend :
  forall sse41,
  (forall d0 d1 (x y : list (word 8)), length x = 2%nat -> length y = 2%nat -> (d0 = 0 \/ d0 = 8 -> d1 = 1 \/ d1 = 9 ->
     exists r, mem_blend_pd sse41 d0 d1 (pack x) (pack y) = Some (pack r) /\
       reg_blend_pd sse41 d1 d0 (pack x) (pack y) = Some (pack r) /\ picks x y [d0; d1] r)%nat) /\
  (forall d0 d1 d2 d3 (x y : list (word 4)), length x = 4%nat -> length y = 4%nat ->
     (d0 = 0 \/ d0 = 8 -> d1 = 1 \/ d1 = 9 -> d2 = 2 \/ d2 = 10 -> d3 = 3 \/ d3 = 11 ->
     exists r, mem_blend_ps sse41 d0 d1 d2 d3 (pack x) (pack y) = Some (pack r) /\
       reg_blend_ps sse41 d3 d2 d1 d0 (pack x) (pack y) = Some (pack r) /\ picks x y [d0; d1; d2; d3] r)%nat) /\
  (forall d0 d1 d2 d3 d4 d5 d6 d7 (x y : list (word 2)), length x = 8%nat -> length y = 8%nat ->
     (d0 = 0 \/ d0 = 8 -> d1 = 1 \/ d1 = 9 -> d2 = 2 \/ d2 = 10 -> d3 = 3 \/ d3 = 11 ->
      d4 = 4 \/ d4 = 12 -> d5 = 5 \/ d5 = 13 -> d6 = 6 \/ d6 = 14 -> d7 = 7 \/ d7 = 15 ->
     exists r, mem_blend_epi16 sse41 d0 d1 d2 d3 d4 d5 d6 d7 (pack x) (pack y) = pack r /\
       picks x y [d0; d1; d2; d3; d4; d5; d6; d7] r)%nat).
Proof. exact ShuffleMain.C44_blend_main. Qed.
Print Assumptions C44_blend.

Example C44_blend_ex :
  option_map (fun r => map uval (lanes 4 r)) (mem_blend_ps false 0 9 10 3 (pack (map (mkw 4) [1; 2; 3; 4])) (pack (map (mkw 4) [5; 6; 7; 8]))) = Some [1; 6; 7; 4].
Proof.
  vm_compute. reflexivity.
Qed.

(** C44: broadcast<Index>() of float_v fills the vector with entry Index modulo 4; for double_v the same modulo 2 when Index
is even.  Missing: odd indexes of double_v, see C44_broadcast_refuted. *)
Theorem C44_broadcast_partial :
  (forall index (x : list (word 4)), length x = 4%nat ->
     exists v, nth_error x (index mod 4) = Some v /\ sse_broadcast_float index (pack x) = pack (repeat v 4)) /\
  (forall index (x : list (word 8)), length x = 2%nat -> Nat.even index = true ->
     exists v, nth_error x (index mod 2) = Some v /\ sse_broadcast_double index (pack x) = pack (repeat v 2)).
Proof. exact ShuffleMain.C44_broadcast_partial_main. Qed.
Print Assumptions C44_broadcast_partial.

Example C44_broadcast_partial_ex :
  map uval (lanes 4 (sse_broadcast_float 6 (pack (map (mkw 4) [1; 2; 3; 4])))) = [3; 3; 3; 3].
Proof.
  vm_compute. reflexivity.
Qed.

(** Finding: double_v::broadcast<1>() gives the vector (x[1], x[0]) instead of (x[1], x[1]). *)
Theorem C44_broadcast_refuted :
  forall a b : word 8, sse_broadcast_double 1 (pack [a; b]) = pack [b; a].
Proof. exact ShuffleMain.C44_broadcast_refuted_main. Qed.
Print Assumptions C44_broadcast_refuted.

Example C44_broadcast_refuted_ex :
  map uval (lanes 8 (sse_broadcast_double 1 (pack (map (mkw 8) [5; 6])))) = [6; 5].
Proof.
  vm_compute. reflexivity.
Qed.

(** C44: in AVX builds float_v::operator[](int_v) permutes: entry i of the result is the entry whose index is entry i of
the argument. *)
Theorem C44_subscript_permutation :
  forall (x perm : list (word 4)), length x = 4%nat -> length perm = 4%nat -> Forall (fun i => 0 <= sval i < 4) perm ->
    exists r, v_permute true (pack x) (pack perm) = pack r /\ map Some r = map (fun i => nth_error x (Z.to_nat (sval i))) perm.
Proof. exact ShuffleMain.C44_subscript_permutation_main. Qed.
Print Assumptions C44_subscript_permutation.

Example C44_subscript_permutation_ex :
  map uval (lanes 4 (v_permute true (pack (map (mkw 4) [10; 11; 12; 13])) (pack (map (mkw 4) [3; 3; 0; 1])))) = [13; 13; 10; 11].
Proof.
  vm_compute. reflexivity.
Qed.

(** Finding: without AVX float_v::operator[](int_v) returns the vector unchanged, whatever the permutation. *)
Theorem C44_subscript_permutation_refuted :
  exists x perm : list (word 4), length x = 4%nat /\ length perm = 4%nat /\ Forall (fun i => 0 <= sval i < 4) perm /\
    forall r, v_permute false (pack x) (pack perm) = pack r -> length r = 4%nat ->
      map Some r <> map (fun i => nth_error x (Z.to_nat (sval i))) perm.
Proof. exact ShuffleMain.C44_subscript_permutation_refuted_main. Qed.
Print Assumptions C44_subscript_permutation_refuted.

Example C44_subscript_permutation_refuted_ex :
  map uval (lanes 4 (v_permute false (pack (map (mkw 4) [10; 11; 12; 13])) (pack (map (mkw 4) [3; 3; 0; 1])))) = [10; 11; 12; 13].
Proof.
  vm_compute. reflexivity.
Qed.

(** C35: the transpose of four float_v writes column j of the inputs to output j. *)
Theorem C35_transpose_float :
  forall a b c d : list (word 4), length a = 4%nat -> length b = 4%nat -> length c = 4%nat -> length d = 4%nat ->
    exists cols, transpose_ps (pack a) (pack b) (pack c) (pack d) = map pack cols /\ transposed [a; b; c; d] cols.
Proof. exact ShuffleMain.C35_transpose_float_main. Qed.
Print Assumptions C35_transpose_float.

Example C35_transpose_float_ex :
  map (fun r => map uval (lanes 4 r)) (transpose_ps (pack (map (mkw 4) [1; 2; 3; 4])) (pack (map (mkw 4) [5; 6; 7; 8]))
    (pack (map (mkw 4) [9; 10; 11; 12])) (pack (map (mkw 4) [13; 14; 15; 16]))) =
  [[1; 5; 9; 13]; [2; 6; 10; 14]; [3; 7; 11; 15]; [4; 8; 12; 16]] /\
  transposed [[1; 2]; [3; 4]] [[1; 3]; [2; 4]].
Proof.
  split; [vm_compute; reflexivity|]. split; [reflexivity|]. intros i j Hi Hj. cbn [length] in Hi, Hj.
  do 2 (destruct i as [|i]; [do 2 (destruct j as [|j]; [split; reflexivity|]); lia|]). lia.
Qed.

(** C35: the transpose of four SimdArrays of four entries: atomic ones (the native transpose is assumed correct, see
C35_transpose_float) and ones that consist of Scalar vectors. *)
Theorem C35_transpose_simdarray :
  forall (A : Type) native (x0 x1 x2 x3 : sa A), wf native 4 x0 -> wf native 4 x1 -> wf native 4 x2 -> wf native 4 x3 ->
    (forall ntr, native 4%nat = true ->
       (forall a b c d, length a = 4%nat -> length b = 4%nat -> length c = 4%nat -> length d = 4%nat -> transposed [a; b; c; d] (ntr a b c d)) ->
       exists rs, transpose_atomic ntr x0 x1 x2 x3 = Some rs /\
         transposed [to_list x0; to_list x1; to_list x2; to_list x3] (map to_list rs)) /\
    (native 1%nat = true -> native 2%nat = false -> native 4%nat = false ->
       exists rs, transpose_4x4 x0 x1 x2 x3 = Some rs /\ Forall (wf native 4) rs /\
         transposed [to_list x0; to_list x1; to_list x2; to_list x3] (map to_list rs)).
Proof. exact ShuffleMain.C35_transpose_simdarray_main. Qed.
Print Assumptions C35_transpose_simdarray.

Example C35_transpose_simdarray_ex :
  let row a b c d := Node (Node (Leaf [a]) (Leaf [b])) (Node (Leaf [c]) (Leaf [d])) in
  wf scalar_native 4 (row 1 2 3 4) /\
  option_map (map to_list) (transpose_4x4 (row 1 2 3 4) (row 5 6 7 8) (row 9 10 11 12) (row 13 14 15 16)) =
  Some [[1; 5; 9; 13]; [2; 6; 10; 14]; [3; 7; 11; 15]; [4; 8; 12; 16]].
Proof.
  split; [|reflexivity]. apply wf_node; [reflexivity|apply wf_node; [reflexivity| |]|apply wf_node; [reflexivity| |]]; apply wf_leaf; reflexivity.
Qed.

(** C18: SimdMaskArray::load reads exactly N bools, store writes exactly N bools, and storing then loading gives the same
mask, for every N and every set of native widths. *)
Theorem C18_mask_array_load_store :
  forall native n, widths_ok native -> (1 <= n)%nat ->
    (forall (m : memory bool) base (mem : Z -> bool), (forall i, 0 <= i < Z.of_nat n -> m (base + i) = Some (mem i)) ->
       exists k, mask_load native m base n = Some k /\ wf native n k /\ to_list k = tab n mem) /\
    (forall (m : memory bool) base i, 0 <= i < Z.of_nat n -> m (base + i) = None -> mask_load native m base n = None) /\
    (forall k (m : memory bool) base, wf native n k -> (forall i, 0 <= i < Z.of_nat n -> exists v, m (base + i) = Some v) ->
       exists m', mask_store k m base = Some m' /\
         (forall i, 0 <= i < Z.of_nat n -> m' (base + i) = Some (znth false (to_list k) i)) /\
         (forall a, a < base \/ base + Z.of_nat n <= a -> m' a = m a) /\
         exists k', mask_load native m' base n = Some k' /\ to_list k' = to_list k).
Proof. exact ShuffleMain.C18_mask_array_load_store_main. Qed.
Print Assumptions C18_mask_array_load_store.

Example C18_mask_array_load_store_ex :
  option_map (fun m => map m [0; 1; 2; 3; 4]) (mask_store (Node (Node (Leaf [true]) (Leaf [false])) (Leaf [true])) (fun a => if a <? 5 then Some false else None) 1)
  = Some [Some false; Some true; Some false; Some true; Some false].
Proof.
  reflexivity.
Qed.

(** C16: Detail::popcnt4/8/16/32 (used by Mask::count() and by the gather and scatter loops), with and without the POPCNT
instruction, return the number of set bits for every argument of 4, 8, 16 resp. 32 bits. *)
Theorem C16_popcnt :
  forall hw (f : bool -> Z -> Z) n, In (f, n) [(popcnt4, 4%nat); (popcnt8, 8%nat); (popcnt16, 16%nat); (popcnt32, 32%nat)] ->
  forall z, 0 <= z < 2 ^ Z.of_nat n -> f hw z = count_spec (map (fun i => Z.testbit z (Z.of_nat i)) (seq 0 n)).
Proof. exact ShuffleMain.C16_popcnt_main. Qed.
Print Assumptions C16_popcnt.

Example C16_popcnt_ex :
  popcnt32 false 0xdeadbeef = 24 /\ popcnt16 false 0xffff = 16.
Proof.
  vm_compute. auto.
Qed.
