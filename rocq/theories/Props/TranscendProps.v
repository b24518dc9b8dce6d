(** sin, cos, sincos, asin, atan, atan2, log, log2, log10 and exp: parity, special values, independence of the entries *)
From Coq Require Import ZArith List Bool Lia.
From Verif.Spec Require Import Seq FloatSpec RoundSpec MathSpec TransSpec.
From Verif.Model Require Import Word Fp FpArith Transcend.
Import ListNotations.
Local Open Scope Z_scope.
From Verif.Proof Require TranscendMain.

(** C52: sin is odd and cos is even, exactly and for every entry, in every build: if two float vectors agree in all entries up
to their signs, the cosines are the same bits, and the sines are the same bits where the signs agree and differ exactly in
the sign where the signs differ (whatever the other entries are). *)
Theorem C52_float_parity :
  forall c xs ys, same_but_signs xs ys -> forall i, an_entry xs i ->
    entry (cos4 c ys) i = entry (cos4 c xs) i /\
    (sign_bit (entry xs i) = sign_bit (entry ys i) -> entry (sin4 c ys) i = entry (sin4 c xs) i) /\
    (sign_bit (entry xs i) <> sign_bit (entry ys i) -> negated (entry (sin4 c xs) i) (entry (sin4 c ys) i)).
Proof. exact TranscendMain.C52_float_parity_main. Qed.
Print Assumptions C52_float_parity.

Example C52_float_parity_ex :
  same_but_signs (map float_bits [0x3f800000; 0xc0000000; 0x461c4000; 0xffc00000]) (map float_bits [0xbf800000; 0xc0000000; 0xc61c4000; 0x7fc00000]) /\
  map uval (sin4 {| gt_on_nan := false; ge_on_nan := true |} (map float_bits [0x3f800000; 0xc0000000; 0x461c4000; 0])) = [0x3f576aa5; 0xbf68c7b7; 0xbe9c797d; 0].
Proof.
  split; [split; [reflexivity|]|vm_compute; reflexivity]. intros i Hi. unfold an_entry in Hi. cbn [map length] in Hi.
  assert (C : i = 0 \/ i = 1 \/ i = 2 \/ i = 3) by lia. destruct C as [->|[->|[->| ->]]]; vm_compute; split; reflexivity.
Qed.

(** C52: the same for double vectors. *)
Theorem C52_double_parity :
  forall xs ys, same_but_signs xs ys -> forall i, an_entry xs i ->
    entry (cos8 ys) i = entry (cos8 xs) i /\
    (sign_bit (entry xs i) = sign_bit (entry ys i) -> entry (sin8 ys) i = entry (sin8 xs) i) /\
    (sign_bit (entry xs i) <> sign_bit (entry ys i) -> negated (entry (sin8 xs) i) (entry (sin8 ys) i)).
Proof. exact TranscendMain.C52_double_parity_main. Qed.
Print Assumptions C52_double_parity.

Example C52_double_parity_ex :
  same_but_signs [double_bits 0x3ff0000000000000; double_bits 0x7ff0000000000000] [double_bits 0xbff0000000000000; double_bits 0x7ff0000000000000].
Proof.
  split; [reflexivity|]. intros i Hi. unfold an_entry in Hi. cbn [length] in Hi. assert (C : i = 0 \/ i = 1) by lia. destruct C as [->| ->]; vm_compute; split; reflexivity.
Qed.

(** C52: whatever the other entries of a float vector are: sin and cos of NaN and of infinities are NaN; sin(+0) = +0 and
sin(-0) = -0, bit by bit; cos(+0) = cos(-0) = 1. *)
Theorem C52_float_special :
  forall c xs i, an_entry xs i ->
    (is_NaN (entry xs i) = true \/ is_Inf (entry xs i) = true -> is_NaN (entry (sin4 c xs) i) = true /\ is_NaN (entry (cos4 c xs) i) = true) /\
    (is_Zero (entry xs i) -> entry (sin4 c xs) i = entry xs i /\ has_value (entry (cos4 c xs) i) 1).
Proof. exact TranscendMain.C52_float_special_main. Qed.
Print Assumptions C52_float_special.

Example C52_float_special_ex :
  map (fun y : word 4 => (is_NaN y, uval y)) (cos4 {| gt_on_nan := false; ge_on_nan := true |} (map float_bits [0; 0x80000000; 0x461c4000; 0x3f800000])) =
    [(false, 0x3f800000); (false, 0x3f800000); (false, 0xbf73c074); (false, 0x3f0a5140)].
Proof.
  vm_compute. reflexivity.
Qed.

(** C52: the same for double vectors. *)
Theorem C52_double_special :
  forall xs i, an_entry xs i ->
    (is_NaN (entry xs i) = true \/ is_Inf (entry xs i) = true -> is_NaN (entry (sin8 xs) i) = true /\ is_NaN (entry (cos8 xs) i) = true) /\
    (is_Zero (entry xs i) -> entry (sin8 xs) i = entry xs i /\ has_value (entry (cos8 xs) i) 1).
Proof. exact TranscendMain.C52_double_special_main. Qed.
Print Assumptions C52_double_special.

Example C52_double_special_ex :
  is_NaN (double_bits 0x7ff8000000000000) = true /\ is_Zero (double_bits 0x8000000000000000).
Proof.
  vm_compute. repeat split.
Qed.

(** C52: sin of double vectors is not continuous for large arguments, although |sin x - sin y| <= |x - y|: for the adjacent
doubles x = 8590650708.99... and y = x + 2 ^ -19 the results have opposite signs and differ by more than 1.  The quadrant is
computed in 32 bits: from 2 ^ 31 * pi / 2 on the result is wrong. *)
Theorem C52_double_large_refuted :
  exists x y : word 8, Z.abs (fvalue x - fvalue y) * 2 ^ 19 = fone 8 /\
    fone 8 < Z.abs (fvalue (entry (sin8 [x; x]) 0) - fvalue (entry (sin8 [y; y]) 0)).
Proof. exact TranscendMain.C52_double_large_refuted_main. Qed.
Print Assumptions C52_double_large_refuted.

Example C52_double_large_refuted_ex :
  is_Finite (double_bits 0x42000000000b2a72) = true.
Proof.
  reflexivity.
Qed.

(** C53: if all entries of two float vectors are in [-25, 25], equal entries have equal sines and cosines, whatever the other
entries are.  Missing: larger entries, see C53_float_independent_refuted. *)
Theorem C53_float_independent_partial :
  forall c xs ys, Forall (within 25) xs -> Forall (within 25) ys -> forall i, an_entry xs i -> an_entry ys i -> entry xs i = entry ys i ->
    entry (sin4 c xs) i = entry (sin4 c ys) i /\ entry (cos4 c xs) i = entry (cos4 c ys) i.
Proof. exact TranscendMain.C53_float_independent_partial_main. Qed.
Print Assumptions C53_float_independent_partial.

Example C53_float_independent_partial_ex :
  Forall (within 25) (map float_bits [0x3f000000; 0x41c80000; 0xc1c80000; 0]).
Proof.
  repeat constructor; vm_compute; congruence.
Qed.

(** C53: if all entries of two double vectors are in [-805, 805], equal entries have equal sines and cosines, whatever the other
entries are.  Missing: larger entries, see C53_double_independent_refuted. *)
Theorem C53_double_independent_partial :
  forall xs ys, Forall (within 805) xs -> Forall (within 805) ys -> forall i, an_entry xs i -> an_entry ys i -> entry xs i = entry ys i ->
    entry (sin8 xs) i = entry (sin8 ys) i /\ entry (cos8 xs) i = entry (cos8 ys) i.
Proof. exact TranscendMain.C53_double_independent_partial_main. Qed.
Print Assumptions C53_double_independent_partial.

Example C53_double_independent_partial_ex :
  Forall (within 805) [double_bits 0x4089200000000000; double_bits 0xbfe0000000000000].
Proof.
  repeat constructor; vm_compute; congruence.
Qed.

(** C53: the sine of an entry depends on the other entries: sin(3.1415958) next to 1 differs from sin(3.1415958) next to 100. *)
Theorem C53_float_independent_refuted :
  forall c, exists x, entry (sin4 c [x; one 4; one 4; one 4]) 0 <> entry (sin4 c [x; one 4; one 4; of_int 4 100]) 0.
Proof. exact TranscendMain.C53_float_independent_refuted_main. Qed.
Print Assumptions C53_float_independent_refuted.

Example C53_float_independent_refuted_ex :
  is_Finite (float_bits 0x40490fe8) = true.
Proof.
  reflexivity.
Qed.

(** C53: the cosine of an entry of a double vector depends on the other entry: cos(pi / 2) next to 1 and next to 1000000. *)
Theorem C53_double_independent_refuted :
  exists x, entry (cos8 [x; one 8]) 0 <> entry (cos8 [x; of_int 8 1000000]) 0.
Proof. exact TranscendMain.C53_double_independent_refuted_main. Qed.
Print Assumptions C53_double_independent_refuted.

Example C53_double_independent_refuted_ex :
  is_Finite (double_bits 0x3ff921fb54442d18) = true.
Proof.
  reflexivity.
Qed.

(** C54: sincos of a double vector returns the same bits as sin and cos. *)
Theorem C54_double_sincos :
  forall xs, sincos8 xs = (sin8 xs, cos8 xs).
Proof. exact TranscendMain.C54_double_sincos_main. Qed.
Print Assumptions C54_double_sincos.

Example C54_double_sincos_ex :
  map uval (fst (sincos8 [w0 8; neg_zero 8])) = [0; 2 ^ 63].
Proof.
  vm_compute. reflexivity.
Qed.

(** C54: sincos of a float vector returns the same bits as sin and cos if all entries are below 393382 or one of them is at
least 527449 in absolute value.  Missing: vectors with entries between these limits, see C54_float_sincos_refuted. *)
Theorem C54_float_sincos_partial :
  forall c xs, Forall (within 393381) xs \/ (exists i, an_entry xs i /\ is_Finite (entry xs i) = true /\ 527449 * fone 4 <= Z.abs (fvalue (entry xs i))) ->
    sincos4 c xs = (sin4 c xs, cos4 c xs).
Proof. exact TranscendMain.C54_float_sincos_partial_main. Qed.
Print Assumptions C54_float_sincos_partial.

Example C54_float_sincos_partial_ex :
  Forall (within 393381) (map float_bits [0x3f000000; 0x41c80000; 0xc1c80000; 0x48c00000]).
Proof.
  repeat constructor; vm_compute; congruence.
Qed.

(** C54: sin and sincos of float vectors disagree for entries between 393382 and 527449: sin goes on computing in float up to
527449 while sincos, like cos, changes to double at 393382. *)
Theorem C54_float_sincos_refuted :
  forall c, exists x, fst (sincos4 c [x; x; x; x]) <> sin4 c [x; x; x; x].
Proof. exact TranscendMain.C54_float_sincos_refuted_main. Qed.
Print Assumptions C54_float_sincos_refuted.

Example C54_float_sincos_refuted_ex :
  is_Finite (of_int 4 393388) = true.
Proof.
  reflexivity.
Qed.

(** C55: log, log2 and log10 (b selects) of float and double vectors, every entry: the logarithm of a negative number (and of
-infinity) is NaN, the logarithm of +0 and -0 is -infinity, the logarithm of 1 is exactly +0. *)
Theorem C55_log_special :
  forall w b (x : word w), w = 4%nat \/ w = 8%nat ->
    (is_NaN x = false -> fvalue x < 0 -> is_NaN (log_calc w b x) = true) /\
    (is_Zero x -> infinity true (log_calc w b x)) /\
    (x = of_int w 1 -> log_calc w b x = w0 w).
Proof. exact TranscendMain.C55_log_special_main. Qed.
Print Assumptions C55_log_special.

Example C55_log_special_ex :
  fvalue (float_bits 0xbf800000) < 0 /\ is_Zero (double_bits 0x8000000000000000) /\ uval (log_calc 4 BaseE (float_bits 0x402df854)) = 0x3f800000.
Proof.
  vm_compute. repeat split.
Qed.

(** C55: log2 of a power of two is exact: for every float or double x = 2 ^ k, denormal or normal, log2(x) is exactly k. *)
Theorem C55_log2_exact :
  forall w (x : word w) k, w = 4%nat \/ w = 8%nat -> is_power_of_two x k -> has_value (log_calc w Base2 x) k.
Proof. exact TranscendMain.C55_log2_exact_main. Qed.
Print Assumptions C55_log2_exact.

Example C55_log2_exact_ex :
  is_power_of_two (float_bits 1) (- 149) /\ is_power_of_two (double_bits 0x7fe0000000000000) 1023 /\ is_power_of_two (float_bits 0x3f000000) (- 1).
Proof.
  vm_compute. repeat split.
Qed.

(** C55: the logarithm of +infinity is a finite number (88.7... for float), and so is the logarithm of NaN. *)
Theorem C55_log_not_finite_refuted :
  forall w b, w = 4%nat \/ w = 8%nat -> is_Finite (log_calc w b (pos_inf w)) = true /\ is_Finite (log_calc w b (a_nan w)) = true.
Proof. exact TranscendMain.C55_log_not_finite_refuted_main. Qed.
Print Assumptions C55_log_not_finite_refuted.

Example C55_log_not_finite_refuted_ex :
  is_Inf (pos_inf 4) = true /\ is_NaN (a_nan 4) = true.
Proof.
  vm_compute. split; reflexivity.
Qed.

(** C56: exp of float vectors, every entry, with and without SSE 4.1: exp(x) = +infinity for x >= 89 (and x = +infinity),
exp(x) = +0 for x <= -104 (and -infinity), exp(+0) = exp(-0) = 1 exactly; exp(NaN) is NaN unless the operator > of the build
is true for NaN, in which case it is +infinity. *)
Theorem C56_float_exp :
  forall sse41 c (x : word 4),
    (is_NaN x = false -> 89 * fone 4 <= fvalue x -> infinity false (exp4 sse41 c x)) /\
    (is_NaN x = false -> fvalue x <= - 104 * fone 4 -> exp4 sse41 c x = w0 4) /\
    (is_Zero x -> exp4 sse41 c x = of_int 4 1) /\
    (is_NaN x = true -> if gt_on_nan c then infinity false (exp4 sse41 c x) else is_NaN (exp4 sse41 c x) = true).
Proof. exact TranscendMain.C56_float_exp_main. Qed.
Print Assumptions C56_float_exp.

Example C56_float_exp_ex :
  89 * fone 4 <= fvalue (float_bits 0x42c80000) /\ fvalue (float_bits 0xff800000) <= - 104 * fone 4 /\
  uval (exp4 false {| gt_on_nan := false; ge_on_nan := true |} (float_bits 0x3f800000)) = 0x402df854.
Proof.
  vm_compute. repeat split; congruence.
Qed.

(** C56: exp of double vectors: +infinity for x >= 710, +0 for x <= -746, 1 for zeros, NaN as for float. *)
Theorem C56_double_exp :
  forall sse41 c (x : word 8),
    (is_NaN x = false -> 710 * fone 8 <= fvalue x -> infinity false (exp8 sse41 c x)) /\
    (is_NaN x = false -> fvalue x <= - 746 * fone 8 -> exp8 sse41 c x = w0 8) /\
    (is_Zero x -> exp8 sse41 c x = of_int 8 1) /\
    (is_NaN x = true -> if gt_on_nan c then infinity false (exp8 sse41 c x) else is_NaN (exp8 sse41 c x) = true).
Proof. exact TranscendMain.C56_double_exp_main. Qed.
Print Assumptions C56_double_exp.

Example C56_double_exp_ex :
  710 * fone 8 <= fvalue (double_bits 0x4087000000000000) /\ is_NaN (double_bits 0x7ff0000000000001) = true.
Proof.
  vm_compute. split; congruence.
Qed.

(** C56: exp of double vectors overflows and underflows too early: with x = 354.5 exp(x) * exp(x) is finite but exp(2 x) is
+infinity, and exp(-x) * exp(-x) is not 0 but exp(-2 x) is. *)
Theorem C56_double_exp_range_refuted :
  forall sse41 c, exists x x2 y : word 8, fvalue x2 = 2 * fvalue x /\
    is_Finite (fmul (exp8 sse41 c x) (exp8 sse41 c x)) = true /\ infinity false (exp8 sse41 c x2) /\
    y = fneg x /\ 0 < fvalue (fmul (exp8 sse41 c y) (exp8 sse41 c y)) /\ exp8 sse41 c (fneg x2) = w0 8.
Proof. exact TranscendMain.C56_double_exp_range_refuted_main. Qed.
Print Assumptions C56_double_exp_range_refuted.

Example C56_double_exp_range_refuted_ex :
  fvalue (flit 8 3545 1) * 2 = 709 * fone 8.
Proof.
  vm_compute. reflexivity.
Qed.

(** C56: exp of float vectors is wrong where the result is denormal: exp(-88) is less than a tenth of exp(-44) * exp(-44). *)
Theorem C56_float_exp_denormal_refuted :
  forall sse41 c, 0 < fvalue (exp4 sse41 c (of_int 4 (- 88))) /\
    10 * fvalue (exp4 sse41 c (of_int 4 (- 88))) < fvalue (fmul (exp4 sse41 c (of_int 4 (- 44))) (exp4 sse41 c (of_int 4 (- 44)))).
Proof. exact TranscendMain.C56_float_exp_denormal_refuted_main. Qed.
Print Assumptions C56_float_exp_denormal_refuted.

Example C56_float_exp_denormal_refuted_ex :
  fvalue (of_int 4 (- 88)) = 2 * fvalue (of_int 4 (- 44)).
Proof.
  vm_compute. reflexivity.
Qed.

(** C57: asin of float vectors, every entry: NaN for NaN and for |x| > 1; odd, bit by bit, for 0 < |x| <= 1; x itself for
0 < |x| <= 2^-14; +-pi/2 for +-1; 0 for +-0. *)
Theorem C57_float_asin :
  forall c (x : word 4),
    (is_NaN x = true \/ fone 4 < Z.abs (fvalue x) -> is_NaN (asin4 c x) = true) /\
    (is_NaN x = false -> fvalue x <> 0 -> Z.abs (fvalue x) <= fone 4 -> forall y, negated x y -> negated (asin4 c x) (asin4 c y)) /\
    (is_NaN x = false -> fvalue x <> 0 -> 2 ^ 14 * Z.abs (fvalue x) <= fone 4 -> asin4 c x = x) /\
    (x = of_int 4 1 -> asin4 c x = half_pi 4) /\
    (is_Zero x -> is_Zero (asin4 c x)).
Proof. exact TranscendMain.C57_float_asin_main. Qed.
Print Assumptions C57_float_asin.

Example C57_float_asin_ex :
  0 < fvalue (float_bits 0x3f000000) <= fone 4 /\ uval (asin4 {| gt_on_nan := true; ge_on_nan := true |} (float_bits 0x3f000000)) = 0x3f060a92.
Proof.
  vm_compute. repeat split; congruence.
Qed.

(** C57: asin of double vectors: the same, x itself for |x| <= 2^-27, and odd including zeros. *)
Theorem C57_double_asin :
  forall c (x : word 8),
    (is_NaN x = true \/ fone 8 < Z.abs (fvalue x) -> is_NaN (asin8 c x) = true) /\
    (is_NaN x = false -> Z.abs (fvalue x) <= fone 8 -> forall y, negated x y -> negated (asin8 c x) (asin8 c y)) /\
    (is_NaN x = false -> 2 ^ 27 * Z.abs (fvalue x) <= fone 8 -> asin8 c x = x) /\
    (x = of_int 8 1 -> asin8 c x = half_pi 8).
Proof. exact TranscendMain.C57_double_asin_main. Qed.
Print Assumptions C57_double_asin.

Example C57_double_asin_ex :
  0 < fvalue (double_bits 0x3fe0000000000000) <= fone 8.
Proof.
  vm_compute. repeat split; congruence.
Qed.

(** C57: atan of float and double vectors, every entry: NaN for NaN; odd, bit by bit, for x other than zero; +-pi/2 for
+-infinity; 0 for +-0. *)
Theorem C57_atan :
  forall w c (x : word w), w = 4%nat \/ w = 8%nat ->
    (is_NaN x = true -> is_NaN (atan w c x) = true) /\
    (is_NaN x = false -> fvalue x <> 0 -> forall y, negated x y -> negated (atan w c x) (atan w c y)) /\
    (is_Inf x = true -> signed_as x (half_pi w) (atan w c x)) /\
    (is_Zero x -> atan w c x = w0 w).
Proof. exact TranscendMain.C57_atan_main. Qed.
Print Assumptions C57_atan.

Example C57_atan_ex :
  uval (atan 4 {| gt_on_nan := false; ge_on_nan := true |} (of_int 4 1)) = uval (quarter_pi 4) /\ uval (atan 4 {| gt_on_nan := true; ge_on_nan := true |} (float_bits 0x40400000)) = 0x3f9fe0bc.
Proof.
  vm_compute. split; reflexivity.
Qed.

(** C57: asin of float vectors and atan return +0 for -0. *)
Theorem C57_minus_zero_refuted :
  forall c, asin4 c (neg_zero 4) = pos_zero 4 /\ atan 4 c (neg_zero 4) = pos_zero 4 /\ atan 8 c (neg_zero 8) = pos_zero 8.
Proof. exact TranscendMain.C57_minus_zero_refuted_main. Qed.
Print Assumptions C57_minus_zero_refuted.

Example C57_minus_zero_refuted_ex :
  is_Zero (neg_zero 4) /\ sign_bit (neg_zero 4) = true.
Proof.
  vm_compute. repeat split.
Qed.

(** C57: atan2(y, x) of float and double vectors, every entry, has all the special values the C standard requires: NaN for NaN;
+-0 for y = +-0 and x not negative (+0 included), +-pi for y = +-0 and x negative (-0 included); +-pi/2 for y != 0 and
x = +-0; +-pi for finite y and x = -infinity and +-0 for x = +infinity; +-pi/2 for y = +-infinity and finite x; +-3pi/4 for
x = -infinity and +-pi/4 for x = +infinity; always with the sign of y. *)
Theorem C57_atan2_special :
  forall w c (y x : word w), w = 4%nat \/ w = 8%nat ->
    (is_NaN y = true \/ is_NaN x = true -> is_NaN (atan2 c y x) = true) /\
    (is_NaN y = false -> is_NaN x = false ->
      (is_Zero y -> signed_as y (if sign_bit x then whole_pi w else w0 w) (atan2 c y x)) /\
      (fvalue y <> 0 -> is_Zero x -> signed_as y (half_pi w) (atan2 c y x)) /\
      (is_Finite y = true -> is_Inf x = true -> signed_as y (if sign_bit x then whole_pi w else w0 w) (atan2 c y x)) /\
      (is_Inf y = true -> is_Finite x = true -> signed_as y (half_pi w) (atan2 c y x)) /\
      (is_Inf y = true -> is_Inf x = true -> signed_as y (if sign_bit x then three_quarter_pi w else quarter_pi w) (atan2 c y x))).
Proof. exact TranscendMain.C57_atan2_special_main. Qed.
Print Assumptions C57_atan2_special.

Example C57_atan2_special_ex :
  uval (atan2 {| gt_on_nan := false; ge_on_nan := true |} (of_int 4 1) (of_int 4 (- 1))) = uval (three_quarter_pi 4) /\
  uval (atan2 {| gt_on_nan := false; ge_on_nan := true |} (neg_zero 4) (of_int 4 (- 5))) = 0xc0490fdb.
Proof.
  vm_compute. split; reflexivity.
Qed.

(** C57: atan2 is odd in y for all y and x that are not NaN: atan2(-y, x) has the bits of atan2(y, x) with the other sign (or
both are NaN). *)
Theorem C57_atan2_odd :
  forall w c (y z x : word w), w = 4%nat \/ w = 8%nat -> is_NaN y = false -> is_NaN x = false -> negated y z ->
    negated (atan2 c y x) (atan2 c z x) \/ is_NaN (atan2 c y x) = true /\ is_NaN (atan2 c z x) = true.
Proof. exact TranscendMain.C57_atan2_odd_main. Qed.
Print Assumptions C57_atan2_odd.

Example C57_atan2_odd_ex :
  uval (atan2 {| gt_on_nan := false; ge_on_nan := true |} (of_int 4 2) (of_int 4 3)) = 0x3f168758 /\
  uval (atan2 {| gt_on_nan := false; ge_on_nan := true |} (of_int 4 (- 2)) (of_int 4 3)) = 0xbf168758.
Proof.
  vm_compute. split; reflexivity.
Qed.
