(** mathematical functions of the Scalar vectors *)
From Coq Require Import ZArith List Bool Lia.
From Verif.Spec Require Import Seq FloatSpec RoundSpec CastSpec MathSpec ScalarSpec.
From Verif.Model Require Import Word Fp FpArith ScalarMath.
Import ListNotations.
Local Open Scope Z_scope.
From Verif.Proof Require ScalarMathMain.

(** C36, Scalar vectors: trunc, floor and ceil of float_v and double_v return the mathematically rounded value for every finite
argument, keep its sign (also when the result is zero), keep infinities and map NaN to NaN. *)
Theorem C36_scalar :
  forall w (x : word w), w = 4%nat \/ w = 8%nat ->
    let ok R y := rounded_value R x y /\ (is_Finite x = true -> sign_bit y = sign_bit x) in
    ok is_trunc (s_trunc x) /\ ok is_floor (s_floor x) /\ ok is_ceil (s_ceil x).
Proof. exact ScalarMathMain.C36_scalar_main. Qed.
Print Assumptions C36_scalar.

Example C36_scalar_ex :
  map (fun f : word 4 -> word 4 => map (fun z => uval (f (mkw 4 z))) [0xc0200000; 0x3f000000; 0xbe800000; 0xff800000]) [s_trunc; s_floor; s_ceil] =
  [[0xc0000000; 0; 0x80000000; 0xff800000]; [0xc0400000; 0; 0xbf800000; 0xff800000]; [0xc0000000; 0x3f800000; 0x80000000; 0xff800000]].
Proof.
  vm_compute. reflexivity.
Qed.

(** C36, Scalar vectors: round of float_v and double_v returns the nearest integer (ties to even) for every finite argument
other than the largest number below one half and the odd integers between 2^23 and 2^24 (2^52 and 2^53 for double) in
absolute value; it keeps infinities and maps NaN to NaN.  Missing: the excluded arguments, for which the claim is false, see
C36_scalar_round_refuted. *)
Theorem C36_scalar_round_partial :
  forall w (x : word w), w = 4%nat \/ w = 8%nat -> x <> just_below_half w -> (forall z, ~ large_odd x z) ->
    rounded_value is_round x (s_round x).
Proof. exact ScalarMathMain.C36_scalar_round_partial_main. Qed.
Print Assumptions C36_scalar_round_partial.

Example C36_scalar_round_partial_ex :
  map (fun z => uval (s_round (mkw 4 z))) [0x40200000; 0x40600000; 0xbfc00000; 0x4affffff; 0x4b000002; 0x4b800001; 0x3efffffe; 0x3f000000; 0x3f000001; 0x7f800000] =
  [0x40000000; 0x40800000; 0xc0000000; 0x4b000000; 0x4b000002; 0x4b800001; 0; 0; 0x3f800000; 0x7f800000].
Proof.
  vm_compute. reflexivity.
Qed.

(** C36, Scalar vectors: round of the largest number below one half is 1, and round of every odd integer z between 2^23 and 2^24
(2^52 and 2^53 for double) in absolute value is z + 1. *)
Theorem C36_scalar_round_refuted :
  forall w, w = 4%nat \/ w = 8%nat ->
    (2 * fvalue (just_below_half w) < fone w /\ has_value (s_round (just_below_half w)) 1) /\
    (forall (x : word w) z, large_odd x z -> has_value (s_round x) (z + 1)).
Proof. exact ScalarMathMain.C36_scalar_round_refuted_main. Qed.
Print Assumptions C36_scalar_round_refuted.

Example C36_scalar_round_refuted_ex :
  large_odd (mkw 4 0xcb000001) (- 2 ^ 23 - 1) /\ uval (s_round (mkw 4 0xcb000001)) = 0xcb000000 /\ uval (s_round (mkw 4 0x3effffff)) = 0x3f800000 /\
  uval (s_round (mkw 8 0x4330000000000001)) = 0x4330000000000002.
Proof.
  split; [split; [split; vm_compute; reflexivity|split; [exists (- 2 ^ 22 - 1); reflexivity|vm_compute; split; [discriminate|reflexivity]]]|].
  vm_compute. auto.
Qed.

(** C36, Scalar vectors: round of every number from -1/2 to -0 (with the sign bit set) is +0: the sign is lost, other than with
SSE4.1 and AVX (C36_sse41, C36_avx). *)
Theorem C36_scalar_round_zero_refuted :
  forall w (x : word w), w = 4%nat \/ w = 8%nat -> is_Finite x = true -> sign_bit x = true -> - fone w <= 2 * fvalue x ->
    fvalue (s_round x) = 0 /\ sign_bit (s_round x) = false.
Proof. exact ScalarMathMain.C36_scalar_round_zero_refuted_main. Qed.
Print Assumptions C36_scalar_round_zero_refuted.

Example C36_scalar_round_zero_refuted_ex :
  map (fun z => uval (s_round (mkw 4 z))) [0xbf000000; 0xbe800000; 0x80000000; 0x80000001; 0xbf000001] = [0; 0; 0; 0; 0xbf800000].
Proof.
  vm_compute. reflexivity.
Qed.

(** C38, Scalar vectors: isnan, isinf and isfinite of float_v and double_v agree with the IEEE-754 classes; abs clears the sign
and keeps everything else; copysign(a, b) has the magnitude (and NaN payload) of a and the sign of b.  For all bit patterns. *)
Theorem C38_scalar :
  forall w (x y : word w), w = 4%nat \/ w = 8%nat ->
    s_isnan x = is_NaN x /\ s_isinf x = is_Inf x /\ s_isfinite x = is_Finite x /\
    (same_magnitude x (s_fabs x) /\ sign_bit (s_fabs x) = false) /\
    (same_magnitude x (s_copysign w x y) /\ sign_bit (s_copysign w x y) = sign_bit y).
Proof. exact ScalarMathMain.C38_scalar_main. Qed.
Print Assumptions C38_scalar.

Example C38_scalar_ex :
  (map (fun z => (s_isnan (mkw 4 z), s_isinf (mkw 4 z), s_isfinite (mkw 4 z))) [0xff800001; 0xff800000; 0x807fffff] =
   [(true, false, false); (false, true, false); (false, false, true)]) /\
  uval (s_copysign 4 (mkw 4 0x7fc00001) (mkw 4 0x80000000)) = 0xffc00001 /\ uval (s_fabs (mkw 8 0x8000000000000000)) = 0.
Proof.
  vm_compute. auto.
Qed.

(** C38, Scalar vectors: min and max of float_v and double_v return one of their arguments, which is the smaller and the larger
one if neither is NaN; if an argument is NaN (or both have the same value) the first argument is returned. *)
Theorem C38_scalar_minmax :
  forall w (x y : word w), w = 4%nat \/ w = 8%nat ->
    (is_NaN x = false -> is_NaN y = false -> is_min x y (s_min x y) /\ is_max x y (s_max x y)) /\
    (is_NaN x = true \/ is_NaN y = true \/ fvalue x = fvalue y -> s_min x y = x /\ s_max x y = x).
Proof. exact ScalarMathMain.C38_scalar_minmax_main. Qed.
Print Assumptions C38_scalar_minmax.

Example C38_scalar_minmax_ex :
  map (fun p => (uval (s_min (mkw 4 (fst p)) (mkw 4 (snd p))), uval (s_max (mkw 4 (fst p)) (mkw 4 (snd p)))))
      [(0xbf800000, 0x40000000); (0x7fc00000, 0x40000000); (0x40000000, 0x7fc00000); (0, 0x80000000)] =
  [(0xbf800000, 0x40000000); (0x7fc00000, 0x7fc00000); (0x40000000, 0x40000000); (0, 0)].
Proof.
  vm_compute. reflexivity.
Qed.

(** C38, Scalar vectors: abs of int_v is the absolute value if that is an int, and is undefined for the smallest int; abs of
short_v is the absolute value modulo 2^16 (so the smallest short is returned). *)
Theorem C38_scalar_abs_int :
  (forall x : word 4, sval x <> - 2 ^ 31 -> exists y, s_abs_int x = Some y /\ sval y = Z.abs (sval x)) /\
  (forall x : word 4, sval x = - 2 ^ 31 -> s_abs_int x = None) /\
  (forall x : word 2, sval (s_abs_short x) = if sval x =? - 2 ^ 15 then - 2 ^ 15 else Z.abs (sval x)).
Proof. exact ScalarMathMain.C38_scalar_abs_int_main. Qed.
Print Assumptions C38_scalar_abs_int.

Example C38_scalar_abs_int_ex :
  map (fun z => option_map sval (s_abs_int (mkw 4 z))) [-5; 7; - 2 ^ 31; 1 - 2 ^ 31] = [Some 5; Some 7; None; Some (2 ^ 31 - 1)] /\
  map (fun z => sval (s_abs_short (mkw 2 z))) [-5; - 2 ^ 15; 2 ^ 15 - 1] = [5; - 2 ^ 15; 2 ^ 15 - 1].
Proof.
  vm_compute. auto.
Qed.

(** C47, Scalar vectors: fma of float_v and double_v is the correctly rounded a * b + c for all finite arguments; fma of the
integer vectors is a * b + c modulo 2^bits. *)
Theorem C47_scalar :
  (forall w (a b c : word w), w = 4%nat \/ w = 8%nat -> is_Finite a = true -> is_Finite b = true -> is_Finite c = true ->
     exists neg, (fma_exact a b c <> 0 -> neg = (fma_exact a b c <? 0)) /\ rounded (s_fma a b c) neg (Z.abs (fma_exact a b c)) (fone w)) /\
  (forall w (a b c : word w), uval (s_fma_int a b c) = (uval a * uval b + uval c) mod 2 ^ (8 * Z.of_nat w)).
Proof. exact ScalarMathMain.C47_scalar_main. Qed.
Print Assumptions C47_scalar.

Example C47_scalar_ex :
  uval (s_fma (mkw 4 0x43808000) (mkw 4 0x477f0100) (mkw 4 0x21800000)) = 0x4b800001 /\
  uval (s_fma (mkw 8 0x3ff0000000000001) (mkw 8 0x3ff0000000000001) (mkw 8 0xbff0000000000002)) = 0x3970000000000000 /\
  uval (s_fma_int (mkw 2 (-3)) (mkw 2 5) (mkw 2 7)) = 2 ^ 16 - 8.
Proof.
  vm_compute. auto.
Qed.
