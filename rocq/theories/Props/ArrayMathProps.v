(** mathematical functions of SimdArray *)
From Coq Require Import ZArith List Bool Lia.
From Verif.Spec Require Import Seq FloatSpec RoundSpec CastSpec MathSpec ScalarSpec.
From Verif.Model Require Import Word Fp FpArith SseReg SseMove SortNet SseInt SseBuild SseArith SseMask SimdArray SimdArrayOps Mem SseConvert SseMath
  AvxReg AvxMove AvxBuild AvxShuffle AvxMask AvxArith AvxConvert AvxMath ScalarVec ScalarMath ArrayMath.
Import ListNotations.
Local Open Scope Z_scope.
From Verif.Proof Require ArrayMathMain.

(** C69: trunc, floor and ceil of SimdArray<float, N> and SimdArray<double, N> give the mathematically rounded value at every
position, keep the sign, keep infinities and map NaN to NaN, for every N, in Scalar, SSE4.1 and AVX builds. *)
Theorem C69_rounding :
  forall b w n (t : sa (word w)), w = 4%nat \/ w = 8%nat -> b <> MSse false -> wf (math_native b w) n t ->
    let ok R (x y : word w) := rounded_value R x y /\ (is_Finite x = true -> sign_bit y = sign_bit x) in
    Forall2 (ok is_trunc) (to_list t) (to_list (a_trunc b w t)) /\
    Forall2 (ok is_floor) (to_list t) (to_list (a_floor b w t)) /\
    Forall2 (ok is_ceil) (to_list t) (to_list (a_ceil b w t)).
Proof. exact ArrayMathMain.C69_rounding_main. Qed.
Print Assumptions C69_rounding.

Example C69_rounding_ex :
  let t := @generate (word 4) (math_native MAvx 4) 13 (fun i => mkw 4 (0xbf800000 + i * 0x00300000)) in
  wf (math_native MAvx 4) 13 t /\
  map uval (to_list (a_floor MAvx 4 t)) = 0xbf800000 :: 0xc0000000 :: 0xc0000000 :: 0xc0400000 :: 0xc0400000 :: 0xc0800000 :: 0xc0a00000 :: 0xc0e00000 ::
                                          0xc1000000 :: 0xc1300000 :: 0xc1600000 :: 0xc1900000 :: [0xc1c00000].
Proof.
  split; [|vm_compute; reflexivity]. apply ArrayMathMain.generated; [auto|lia].
Qed.

(** C69, SSE2 builds: trunc, floor and ceil of SimdArray<float, N> give the mathematically rounded value at every position, keep
infinities and map NaN to NaN, for every N.  (The sign of a zero result can be lost, see C36_sse2_zero_refuted.) *)
Theorem C69_rounding_sse2 :
  forall n (t : sa (word 4)), wf (math_native (MSse false) 4) n t ->
    Forall2 (rounded_value is_trunc) (to_list t) (to_list (a_trunc (MSse false) 4 t)) /\
    Forall2 (rounded_value is_floor) (to_list t) (to_list (a_floor (MSse false) 4 t)) /\
    Forall2 (rounded_value is_ceil) (to_list t) (to_list (a_ceil (MSse false) 4 t)).
Proof. exact ArrayMathMain.C69_rounding_sse2_main. Qed.
Print Assumptions C69_rounding_sse2.

Example C69_rounding_sse2_ex :
  let t := @generate (word 4) (math_native (MSse false) 4) 6 (fun i => mkw 4 (0xbf800000 + i * 0x00300000)) in
  wf (math_native (MSse false) 4) 6 t /\ map uval (to_list (a_ceil (MSse false) 4 t)) = [0xbf800000; 0xbf800000; 0xbf800000; 0xc0000000; 0xc0400000; 0xc0400000].
Proof.
  split; [|vm_compute; reflexivity]. apply ArrayMathMain.generated; [auto|lia].
Qed.

(** C69: abs and copysign of SimdArray<float, N> and SimdArray<double, N> change nothing but the sign, at every position, for
every N, all bit patterns and all builds. *)
Theorem C69_abs_copysign :
  forall b w n (t u : sa (word w)), w = 4%nat \/ w = 8%nat -> wf (math_native b w) n t -> wf (math_native b w) n u ->
    Forall2 (fun x y => same_magnitude x y /\ sign_bit y = false) (to_list t) (to_list (a_abs b w t)) /\
    exists r, a_copysign b w t u = Some r /\ wf (math_native b w) n r /\
      Forall2 (fun xy z => same_magnitude (fst xy) z /\ sign_bit z = sign_bit (snd xy)) (combine (to_list t) (to_list u)) (to_list r).
Proof. exact ArrayMathMain.C69_abs_copysign_main. Qed.
Print Assumptions C69_abs_copysign.

Example C69_abs_copysign_ex :
  let t := @generate (word 8) (math_native MAvx 8) 7 (fun i => mkw 8 (i * 0x3000000000000000)) in
  let u := @generate (word 8) (math_native MAvx 8) 7 (fun i => mkw 8 (0x7ffffffffffffffd + i)) in
  (wf (math_native MAvx 8) 7 t /\ wf (math_native MAvx 8) 7 u) /\
  option_map (fun r => map uval (to_list r)) (a_copysign MAvx 8 t u) =
  Some [0; 0x3000000000000000; 0x6000000000000000; 0x9000000000000000; 0xc000000000000000; 0xf000000000000000; 0xa000000000000000].
Proof.
  split; [|vm_compute; reflexivity]. split; (apply ArrayMathMain.generated; [auto|lia]).
Qed.

(** C69: isfinite, isinf, isnan and isnegative of SimdArray<float, N> and SimdArray<double, N> are the IEEE-754 classes and the
sign bit at every position, for every N, all bit patterns and all builds. *)
Theorem C69_classification :
  forall b w n (t : sa (word w)), w = 4%nat \/ w = 8%nat -> wf (math_native b w) n t ->
    to_list (a_isfinite b w t) = map is_Finite (to_list t) /\ to_list (a_isinf b w t) = map is_Inf (to_list t) /\
    to_list (a_isnan b w t) = map is_NaN (to_list t) /\ to_list (a_isnegative b w t) = map sign_bit (to_list t).
Proof. exact ArrayMathMain.C69_classification_main. Qed.
Print Assumptions C69_classification.

Example C69_classification_ex :
  let t := @generate (word 4) (math_native (MSse true) 4) 6 (fun i => mkw 4 (0x7f7fffff + i)) in
  wf (math_native (MSse true) 4) 6 t /\ to_list (a_isnan (MSse true) 4 t) = [false; false; true; true; true; true] /\
  to_list (a_isinf (MSse true) 4 t) = [false; true; false; false; false; false].
Proof.
  split; [|vm_compute; auto]. apply ArrayMathMain.generated; [auto|lia].
Qed.

(** C69: round of SimdArray<float, N> and SimdArray<double, N> gives the nearest integer (ties to even) at every position, for
every N, if the entry is neither the largest number below one half nor an odd integer between 2^23 and 2^24 (2^52 and 2^53)
in absolute value; in SSE2 builds only for entries in the range of int.  Missing: the excluded entries, for which the claim
is false, see C69_round_refuted and C36_sse2_round_refuted. *)
Theorem C69_round_partial :
  (forall b w n (t : sa (word w)), w = 4%nat \/ w = 8%nat -> b <> MSse false -> wf (math_native b w) n t ->
     Forall2 (fun x y => x <> just_below_half w -> (forall z, ~ large_odd x z) -> rounded_value is_round x y) (to_list t) (to_list (a_round b w t))) /\
  (forall w n (t : sa (word w)), w = 4%nat \/ w = 8%nat -> wf (math_native (MSse false) w) n t ->
     Forall2 (fun x y => is_Finite x = true -> - 2 ^ 31 * fone w <= fvalue x <= (2 ^ 31 - 1) * fone w -> x <> just_below_half w -> (forall z, ~ large_odd x z) ->
                         exists z, is_round (fvalue x) (fone w) z /\ has_value y z) (to_list t) (to_list (a_round (MSse false) w t))).
Proof. exact ArrayMathMain.C69_round_partial_main. Qed.
Print Assumptions C69_round_partial.

Example C69_round_partial_ex :
  let t := @generate (word 4) (math_native (MSse false) 4) 5 (fun i => mkw 4 (0x40200000 + 0x200000 * i)) in
  wf (math_native (MSse false) 4) 5 t /\ map uval (to_list (a_round (MSse false) 4 t)) = [0x40000000; 0x40400000; 0x40800000; 0x40800000; 0x40a00000].
Proof.
  split; [|vm_compute; reflexivity]. apply ArrayMathMain.generated; [auto|lia].
Qed.

(** C69: a SimdArray<float, 5> whose five entries are the largest float below one half: round gives 0 at the first four
positions and 1 at the last one; with 2^23 + 1 the last position has 2^23 + 2 (SSE4.1 and AVX builds). *)
Theorem C69_round_refuted :
  forall b, b = MSse true \/ b = MAvx ->
    let rounded x := map fvalue (to_list (a_round b 4 (generate (math_native b 4) 5 (fun _ => x)))) in
    rounded (just_below_half 4) = [0; 0; 0; 0; fone 4] /\
    exists x, has_value x (2 ^ 23 + 1) /\ rounded x = map (fun z => z * fone 4) [2 ^ 23 + 1; 2 ^ 23 + 1; 2 ^ 23 + 1; 2 ^ 23 + 1; 2 ^ 23 + 2].
Proof. exact ArrayMathMain.C69_round_refuted_main. Qed.
Print Assumptions C69_round_refuted.

(** C69: min and max of SimdArray<float, N> and SimdArray<double, N> are the smaller and the larger entry at every position
where neither entry is NaN, for every N and all builds.  Missing: a result that is the same at every position if an entry
is NaN, which is false, see C69_minmax_refuted. *)
Theorem C69_minmax_partial :
  forall b w n (t u : sa (word w)), w = 4%nat \/ w = 8%nat -> wf (math_native b w) n t -> wf (math_native b w) n u ->
    exists lo hi, a_min b w t u = Some lo /\ a_max b w t u = Some hi /\ wf (math_native b w) n lo /\ wf (math_native b w) n hi /\
      Forall2 (fun xy r => is_NaN (fst xy) = false -> is_NaN (snd xy) = false -> is_min (fst xy) (snd xy) r) (combine (to_list t) (to_list u)) (to_list lo) /\
      Forall2 (fun xy r => is_NaN (fst xy) = false -> is_NaN (snd xy) = false -> is_max (fst xy) (snd xy) r) (combine (to_list t) (to_list u)) (to_list hi).
Proof. exact ArrayMathMain.C69_minmax_partial_main. Qed.
Print Assumptions C69_minmax_partial.

Example C69_minmax_partial_ex :
  let t := @generate (word 4) (math_native MAvx 4) 9 (fun i => mkw 4 (i * 0x1c000000)) in
  let u := @generate (word 4) (math_native MAvx 4) 9 (fun i => mkw 4 0x40000000) in
  (wf (math_native MAvx 4) 9 t /\ wf (math_native MAvx 4) 9 u) /\
  option_map (fun r => map uval (to_list r)) (a_max MAvx 4 t u) = Some [0x40000000; 0x40000000; 0x40000000; 0x54000000; 0x70000000; 0x40000000; 0x40000000; 0x40000000; 0x40000000].
Proof.
  split; [|vm_compute; reflexivity]. split; (apply ArrayMathMain.generated; [auto|lia]).
Qed.

(** C69: min and max of two SimdArray<float, 5>, one with NaN in all entries and the other with 1 in all entries: the results
differ between the positions.  min(NaN, 1) and max(NaN, 1) are 1 at the first four positions and NaN at the last one;
min(1, NaN) and max(1, NaN) are NaN at the first four positions and 1 at the last one (SSE and AVX builds). *)
Theorem C69_minmax_refuted :
  forall b, b <> MScalar ->
    let all5 x := generate (math_native b 4) 5 (fun _ => x) in
    exists nan one : word 4, is_NaN nan = true /\ has_value one 1 /\
      option_map to_list (a_min b 4 (all5 nan) (all5 one)) = Some [one; one; one; one; nan] /\
      option_map to_list (a_max b 4 (all5 nan) (all5 one)) = Some [one; one; one; one; nan] /\
      option_map to_list (a_min b 4 (all5 one) (all5 nan)) = Some [nan; nan; nan; nan; one] /\
      option_map to_list (a_max b 4 (all5 one) (all5 nan)) = Some [nan; nan; nan; nan; one].
Proof. exact ArrayMathMain.C69_minmax_refuted_main. Qed.
Print Assumptions C69_minmax_refuted.

(** C69: fma of SimdArray<float, N> (without FMA instructions) is the correctly rounded a * b + c at every position where the
exact value is a double, for every N and all builds.  Missing: correct rounding in all cases, which is false, see
C69_fma_refuted. *)
Theorem C69_fma_partial :
  forall b n (t u v : sa (word 4)), wf (math_native b 4) n t -> wf (math_native b 4) n u -> wf (math_native b 4) n v ->
    exists r, a_fma4 b t u v = Some r /\ wf (math_native b 4) n r /\
      Forall2 (fun abc r => let '(a, (b, c)) := abc in is_Finite a = true -> is_Finite b = true -> is_Finite c = true ->
                 (exists t : word 8, is_Finite t = true /\ fvalue t = fma_exact a b c * 2 ^ 776) ->
                 exists neg, (fma_exact a b c <> 0 -> neg = (fma_exact a b c <? 0)) /\ rounded r neg (Z.abs (fma_exact a b c)) (fone 4))
              (combine (to_list t) (combine (to_list u) (to_list v))) (to_list r).
Proof. exact ArrayMathMain.C69_fma_partial_main. Qed.
Print Assumptions C69_fma_partial.

Example C69_fma_partial_ex :
  let t := @generate (word 4) (math_native (MSse true) 4) 5 (fun i => mkw 4 0x3f800001) in
  let v := @generate (word 4) (math_native (MSse true) 4) 5 (fun i => mkw 4 0xbf800002) in
  (wf (math_native (MSse true) 4) 5 t /\ wf (math_native (MSse true) 4) 5 v) /\
  option_map (fun r => map uval (to_list r)) (a_fma4 (MSse true) t t v) = Some (repeat 0x28800000 5).
Proof.
  split; [|vm_compute; reflexivity]. split; (apply ArrayMathMain.generated; [auto|lia]).
Qed.

(** C69: fma(257, 65281, 2 ^ -60) of SimdArray<float, 5> (SSE and AVX builds without FMA instructions) is 2 ^ 24 at the first
four positions and 2 ^ 24 + 2 (the correctly rounded value) at the last one. *)
Theorem C69_fma_refuted :
  forall b, b <> MScalar ->
    let all5 (x : word 4) := generate (math_native b 4) 5 (fun _ => x) in
    exists x y z : word 4, has_value x 257 /\ has_value y 65281 /\ is_Finite z = true /\ fvalue z * 2 ^ 60 = fone 4 /\
      option_map (fun r => map fvalue (to_list r)) (a_fma4 b (all5 x) (all5 y) (all5 z)) =
      Some (map (fun k => k * fone 4) [2 ^ 24; 2 ^ 24; 2 ^ 24; 2 ^ 24; 2 ^ 24 + 2]).
Proof. exact ArrayMathMain.C69_fma_refuted_main. Qed.
Print Assumptions C69_fma_refuted.
