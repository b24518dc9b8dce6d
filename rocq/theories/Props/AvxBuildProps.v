(** SimdArray<T, N> in a build with AVX or AVX2: the properties of SimdArrayProps without any assumption about the native vectors, whose code is modelled at register level *)
From Coq Require Import ZArith List Bool Lia Permutation.
From Verif.Spec Require Import Seq NativeSpec.
From Verif.Model Require Import SplitSize SimdArray ScalarVec Word Fp SseReg SseMove SortNet SseBuild AvxReg AvxMove AvxBuild.
Import ListNotations.
Local Open Scope Z_scope.
From Verif.Proof Require AvxBuildMain.

(** C05: AVX and AVX2 builds, all element types, every power-of-two size, every amount. *)
Theorem C05_avx_shifted :
  forall avx2 c e add j (t : sa (elt e)) k, wf (avx_widths_of avx2 e) (Nat.pow 2 j) t ->
    exists r, shifted (avx_widths_of avx2 e) (avx_build avx2 c e add) (w0 _) t k = Some r /\
      wf (avx_widths_of avx2 e) (Nat.pow 2 j) r /\ to_list r = shift_spec (w0 _) (to_list t) k.
Proof. exact AvxBuildMain.C05_avx_shifted_main. Qed.
Print Assumptions C05_avx_shifted.

Example C05_avx_shifted_ex :
  option_map (fun r => map uval (to_list r)) (shifted (avx_widths_of true Int) (avx_build true false Int wadd) (w0 4)
    (generate (avx_widths_of true Int) 16 (fun i => mkw 4 (i + 1))) (-5)) = Some [0; 0; 0; 0; 0; 1; 2; 3; 4; 5; 6; 7; 8; 9; 10; 11].
Proof. vm_compute. reflexivity. Qed.

(** C05: a single AVX vector (size = 32 bytes / sizeof(T)), every amount. *)
Theorem C05_avx_vector_shifted :
  forall c e add (xs : list (elt e)) k, length xs = (32 / esize e)%nat ->
    n_shifted (avx_build true c e add) xs k = shift_spec (w0 _) xs k.
Proof. exact AvxBuildMain.C05_avx_vector_shifted_main. Qed.
Print Assumptions C05_avx_vector_shifted.

Example C05_avx_vector_shifted_ex :
  map uval (n_shifted (avx_build true false Short wadd) (tab 16 (mkw 2)) 9) = [9; 10; 11; 12; 13; 14; 15; 0; 0; 0; 0; 0; 0; 0; 0; 0].
Proof. vm_compute. reflexivity. Qed.

(** Finding: with GCC zeroExtend is only a cast (avx/casts.h:84-86), which leaves the upper 128 bits undefined.
    shifted() by at least half the size then returns these bits in place of the zeros: whatever they are,
    they are the upper half of the result. *)
Theorem C05_avx_undefined_upper_refuted :
  forall undef c (e : etype) add (xs : list (elt e)) k, length undef = 16%nat -> length xs = (32 / esize e)%nat ->
    16 <= k * Z.of_nat (esize e) < 32 ->
    skipn (16 / esize e) (n_shifted (avx_build_undef undef true c e add) xs k) = of_reg (esize e) dec undef.
Proof. exact AvxBuildMain.C05_avx_undefined_upper_refuted_main. Qed.
Print Assumptions C05_avx_undefined_upper_refuted.

Example C05_avx_undefined_upper_refuted_ex :
  map uval (n_shifted (avx_build_undef (repeat 7 16) true false Double wadd) (tab 4 (mkw 8)) 3) =
    [3; 0; 0x0707070707070707; 0x0707070707070707].
Proof. vm_compute. reflexivity. Qed.

(** C06: AVX and AVX2 builds, every size, every amount up to the size in both directions, with the amount known
    at compile time ([c]) or not. *)
Theorem C06_avx_shifted_in :
  forall avx2 c e add n (t s : sa (elt e)) k,
    wf (avx_widths_of avx2 e) n t -> wf (avx_widths_of avx2 e) n s -> - Z.of_nat n <= k <= Z.of_nat n ->
    exists r, shifted_in (avx_widths_of avx2 e) (avx_build avx2 c e add) (w0 _) t k s = Some r /\
      wf (avx_widths_of avx2 e) n r /\ to_list r = shiftin_spec (w0 _) (to_list t) (to_list s) k.
Proof. exact AvxBuildMain.C06_avx_shifted_in_main. Qed.
Print Assumptions C06_avx_shifted_in.

Example C06_avx_shifted_in_ex :
  option_map (fun r => map uval (to_list r)) (shifted_in (avx_widths_of false Float) (avx_build false true Float wadd) (w0 4)
    (generate (avx_widths_of false Float) 13 (fun i => mkw 4 i)) (-2) (generate (avx_widths_of false Float) 13 (fun i => mkw 4 (i + 20)))) =
    Some [31; 32; 0; 1; 2; 3; 4; 5; 6; 7; 8; 9; 10].
Proof. vm_compute. reflexivity. Qed.

(** C06: a single AVX vector, every amount whatsoever (the SSE vectors fail for some amounts above Size, see
    C06_sse_vector_shifted_in_refuted), known at compile time or not. *)
Theorem C06_avx_vector_shifted_in :
  forall c e add (xs s : list (elt e)) k, length xs = (32 / esize e)%nat -> length s = (32 / esize e)%nat ->
    n_shifted_in (avx_build true c e add) xs k s = shiftin_spec (w0 _) xs s k.
Proof. exact AvxBuildMain.C06_avx_vector_shifted_in_main. Qed.
Print Assumptions C06_avx_vector_shifted_in.

Example C06_avx_vector_shifted_in_ex :
  map uval (n_shifted_in (avx_build true true Int wadd) (tab 8 (mkw 4)) 11 (tab 8 (fun i => mkw 4 (i + 10)))) = [13; 14; 15; 16; 17; 0; 0; 0].
Proof. vm_compute. reflexivity. Qed.

(** C07: AVX and AVX2 builds, every size, every amount. *)
Theorem C07_avx_rotated :
  forall avx2 c e add n (t : sa (elt e)) k, wf (avx_widths_of avx2 e) n t ->
    exists r, rotated (avx_widths_of avx2 e) (avx_build avx2 c e add) (w0 _) t k = Some r /\
      wf (avx_widths_of avx2 e) n r /\ to_list r = rotate_spec (w0 _) (to_list t) k.
Proof. exact AvxBuildMain.C07_avx_rotated_main. Qed.
Print Assumptions C07_avx_rotated.

Example C07_avx_rotated_ex :
  option_map (fun r => map uval (to_list r)) (rotated (avx_widths_of true UShort) (avx_build true false UShort wadd) (w0 2)
    (generate (avx_widths_of true UShort) 16 (mkw 2)) (-4)) = Some [12; 13; 14; 15; 0; 1; 2; 3; 4; 5; 6; 7; 8; 9; 10; 11].
Proof. vm_compute. reflexivity. Qed.

(** C08: AVX and AVX2 builds, every size. *)
Theorem C08_avx_reversed :
  forall avx2 c e add n (t : sa (elt e)), wf (avx_widths_of avx2 e) n t ->
    exists r, reversed (avx_widths_of avx2 e) (avx_build avx2 c e add) (w0 _) t = Some r /\
      wf (avx_widths_of avx2 e) n r /\ to_list r = rev (to_list t).
Proof. exact AvxBuildMain.C08_avx_reversed_main. Qed.
Print Assumptions C08_avx_reversed.

Example C08_avx_reversed_ex :
  option_map (fun r => map uval (to_list r)) (reversed (avx_widths_of true Double) (avx_build true false Double wadd) (w0 8)
    (generate (avx_widths_of true Double) 7 (mkw 8))) = Some [6; 5; 4; 3; 2; 1; 0].
Proof. vm_compute. reflexivity. Qed.

(** C09: AVX and AVX2 builds, every size. *)
Theorem C09_avx_interleave :
  forall avx2 c e add n (t x : sa (elt e)), wf (avx_widths_of avx2 e) n t -> wf (avx_widths_of avx2 e) n x ->
    exists lo hi, interleave_low (avx_widths_of avx2 e) (avx_build avx2 c e add) (w0 _) t x = Some lo /\
      interleave_high (avx_widths_of avx2 e) (avx_build avx2 c e add) (w0 _) t x = Some hi /\
      wf (avx_widths_of avx2 e) n lo /\ wf (avx_widths_of avx2 e) n hi /\
      to_list lo ++ to_list hi = interleave_spec (to_list t) (to_list x).
Proof. exact AvxBuildMain.C09_avx_interleave_main. Qed.
Print Assumptions C09_avx_interleave.

Example C09_avx_interleave_ex :
  let t := generate (avx_widths_of true UInt) 9 (mkw 4) in let x := generate (avx_widths_of true UInt) 9 (fun i => mkw 4 (i + 10)) in
  (option_map (fun r => map uval (to_list r)) (interleave_low (avx_widths_of true UInt) (avx_build true false UInt wadd) (w0 4) t x),
   option_map (fun r => map uval (to_list r)) (interleave_high (avx_widths_of true UInt) (avx_build true false UInt wadd) (w0 4) t x)) =
  (Some [0; 10; 1; 11; 2; 12; 3; 13; 4], Some [14; 5; 15; 6; 16; 7; 17; 8; 18]).
Proof. vm_compute. reflexivity. Qed.

(** C10: AVX and AVX2 builds, the integer types, every size: the networks of avx_sorthelper.cpp and
    sse_sorthelper.cpp inside the bitonic merge of SimdArray. *)
Theorem C10_avx_sorted :
  forall avx2 c e add n (t : sa (elt e)), is_integer e = true -> wf (avx_widths_of avx2 e) n t ->
    exists r, sorted (avx_widths_of avx2 e) (avx_build avx2 c e add) (w0 _) (e_min e) (e_max e) (e_top e) t = Some r /\
      wf (avx_widths_of avx2 e) n r /\ sorted_spec (e_le e) (to_list r) /\ Permutation (to_list r) (to_list t).
Proof. exact AvxBuildMain.C10_avx_sorted_main. Qed.
Print Assumptions C10_avx_sorted.

Example C10_avx_sorted_ex :
  option_map (fun r => map sval (to_list r)) (sorted (avx_widths_of true Int) (avx_build true false Int wadd) (w0 4) (e_min Int) (e_max Int) (e_top Int)
    (generate (avx_widths_of true Int) 11 (fun i => mkw 4 ((i * 5 + 3) mod 11 - 5)))) = Some [-5; -4; -3; -2; -1; 0; 1; 2; 3; 4; 5].
Proof. vm_compute. reflexivity. Qed.

(** C12: AVX and AVX2 builds, every size, wrap-around integer addition. *)
Theorem C12_avx_partial_sum :
  forall avx2 c e n (t : sa (elt e)), is_integer e = true -> wf (avx_widths_of avx2 e) n t ->
    exists r, partial_sum (avx_build avx2 c e wadd) (w0 _) wadd t = Some r /\
      wf (avx_widths_of avx2 e) n r /\ to_list r = partial_sum_spec wadd (to_list t).
Proof. exact AvxBuildMain.C12_avx_partial_sum_main. Qed.
Print Assumptions C12_avx_partial_sum.

Example C12_avx_partial_sum_ex :
  option_map (fun r => map uval (to_list r)) (partial_sum (avx_build true false UShort wadd) (w0 2) wadd
    (generate (avx_widths_of true UShort) 19 (fun i => mkw 2 (1000 * i)))) =
  Some [0; 1000; 3000; 6000; 10000; 15000; 21000; 28000; 36000; 45000; 55000; 464; 12464; 25464; 39464; 54464; 4928; 21928; 39928].
Proof. vm_compute. reflexivity. Qed.
