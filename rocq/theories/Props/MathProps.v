(** floating-point functions of the SSE vectors *)
From Coq Require Import ZArith List Bool Lia.
From Verif.Spec Require Import Seq FloatSpec RoundSpec CastSpec MathSpec.
From Verif.Model Require Import Word Fp FpArith SseReg SseMove SortNet SseInt SseBuild SseArith SseMask SimdArray Mem SseConvert SseMath.
Import ListNotations.
Local Open Scope Z_scope.
From Verif.Proof Require MathMain.

(** C38: isnan, isinf, isfinite and isnegative of float_v (w = 4) and double_v (w = 8) agree with the IEEE-754 classes and
the sign bit for every bit pattern of every entry, in SSE2 and SSE4.1 builds. *)
Theorem C38_classification :
  forall sse41 w (xs : list (word w)), w = 4%nat \/ w = 8%nat -> length xs = (16 / w)%nat ->
    v_isnan w (pack xs) = mask_reg w (map is_NaN xs) /\
    v_isinf sse41 w (pack xs) = mask_reg w (map is_Inf xs) /\
    v_isfinite w (pack xs) = mask_reg w (map is_Finite xs) /\
    v_isnegative w (pack xs) = mask_reg w (map sign_bit xs).
Proof. exact MathMain.C38_classification_main. Qed.
Print Assumptions C38_classification.

Example C38_classification_ex :
  let v := pack (map (mkw 4) [0x7fc00000; 0x80000000; 0xff800000; 0x3fc00000]) in
  map (fun m => map uval (lanes 4 m)) [v_isnan 4 v; v_isinf true 4 v; v_isfinite 4 v; v_isnegative 4 v] =
  [[2 ^ 32 - 1; 0; 0; 0]; [0; 0; 2 ^ 32 - 1; 0]; [0; 2 ^ 32 - 1; 0; 2 ^ 32 - 1]; [0; 2 ^ 32 - 1; 2 ^ 32 - 1; 0]].
Proof.
  vm_compute. reflexivity.
Qed.

(** C38: abs clears the sign of every entry and keeps everything else; copysign(a, b) has the magnitude (and NaN payload)
of a and the sign of b, for all bit patterns. *)
Theorem C38_abs_copysign :
  forall w (xs ys : list (word w)), w = 4%nat \/ w = 8%nat -> length xs = (16 / w)%nat -> length ys = (16 / w)%nat ->
    Forall2 (fun x y => same_magnitude x y /\ sign_bit y = false) xs (lanes w (v_fabs w (pack xs))) /\
    Forall2 (fun xy z => same_magnitude (fst xy) z /\ sign_bit z = sign_bit (snd xy)) (combine xs ys)
            (lanes w (v_copysign w (pack xs) (pack ys))).
Proof. exact MathMain.C38_abs_copysign_main. Qed.
Print Assumptions C38_abs_copysign.

Example C38_abs_copysign_ex :
  map uval (lanes 4 (v_copysign 4 (pack (map (mkw 4) [0x3fc00000; 0x80000000; 0xff800000; 0x7fc00001])) (pack (map (mkw 4) [0x80000000; 0; 0; 0xffc00000])))) =
  [0xbfc00000; 0; 0x7f800000; 0xffc00001].
Proof.
  vm_compute. reflexivity.
Qed.

(** C38: isnegative of the scalar float_v and double_v is the sign bit, for all bit patterns. *)
Theorem C38_scalar_isnegative :
  forall w (x : word w), w = 4%nat \/ w = 8%nat -> s_isnegative w x = sign_bit x.
Proof. exact MathMain.C38_scalar_isnegative_main. Qed.
Print Assumptions C38_scalar_isnegative.

Example C38_scalar_isnegative_ex :
  map (s_isnegative 8) (map (mkw 8) [0x8000000000000000; 0; 0xfff8000000000000]) = [true; false; true].
Proof.
  vm_compute. reflexivity.
Qed.

(** C36, SSE4.1 builds: trunc, floor, ceil and round (to nearest, ties to even) of float_v and double_v return the
mathematically rounded value for every finite entry, keep its sign (also when the result is zero), keep infinities and
map NaN to NaN. *)
Theorem C36_sse41 :
  forall w (xs : list (word w)), w = 4%nat \/ w = 8%nat -> length xs = (16 / w)%nat ->
    let ok R x y := rounded_value R x y /\ (is_Finite x = true -> sign_bit y = sign_bit x) in
    Forall2 (ok is_trunc) xs (lanes w (v_trunc true w (pack xs))) /\
    Forall2 (ok is_floor) xs (lanes w (v_floor true w (pack xs))) /\
    Forall2 (ok is_ceil) xs (lanes w (v_ceil true w (pack xs))) /\
    Forall2 (ok is_round) xs (lanes w (v_round true w (pack xs))).
Proof. exact MathMain.C36_sse41_main. Qed.
Print Assumptions C36_sse41.

Example C36_sse41_ex :
  let v := pack (map (mkw 4) [0xc0200000; 0x3f000000; 0xbe800000; 0x3fc00000]) in
  map (fun r => map uval (lanes 4 r)) [v_trunc true 4 v; v_floor true 4 v; v_ceil true 4 v; v_round true 4 v] =
  [[0xc0000000; 0; 0x80000000; 0x3f800000]; [0xc0400000; 0; 0xbf800000; 0x3f800000];
   [0xc0000000; 0x3f800000; 0x80000000; 0x40000000]; [0xc0000000; 0; 0x80000000; 0x40000000]].
Proof.
  vm_compute. reflexivity.
Qed.

(** C36, SSE2 builds, float_v: trunc, floor and ceil return the mathematically rounded value for every finite entry, keep
infinities and map NaN to NaN.  (The sign of a zero result is lost, see C36_sse2_zero_refuted.) *)
Theorem C36_sse2_float :
  forall xs : list (word 4), length xs = 4%nat ->
    Forall2 (rounded_value is_trunc) xs (lanes 4 (v_trunc false 4 (pack xs))) /\
    Forall2 (rounded_value is_floor) xs (lanes 4 (v_floor false 4 (pack xs))) /\
    Forall2 (rounded_value is_ceil) xs (lanes 4 (v_ceil false 4 (pack xs))).
Proof. exact MathMain.C36_sse2_float_main. Qed.
Print Assumptions C36_sse2_float.

Example C36_sse2_float_ex :
  let v := pack (map (mkw 4) [0xc0200000; 0x3f000000; 0x4b800001; 0xff800000]) in
  map (fun r => map uval (lanes 4 r)) [v_trunc false 4 v; v_floor false 4 v; v_ceil false 4 v] =
  [[0xc0000000; 0; 0x4b800001; 0xff800000]; [0xc0400000; 0; 0x4b800001; 0xff800000]; [0xc0000000; 0x3f800000; 0x4b800001; 0xff800000]].
Proof.
  vm_compute. reflexivity.
Qed.

(** C36, SSE2 builds, double_v: trunc, floor and ceil return the mathematically rounded value for every entry that is NaN,
infinite or of absolute value at most 2 ^ 52; trunc keeps the sign of these finite entries.  Missing: larger absolute
values, for which the claim is false, see C36_sse2_double_refuted. *)
Theorem C36_sse2_double_partial :
  forall xs : list (word 8), length xs = 2%nat ->
    let small x := is_Finite x = true -> Z.abs (fvalue x) <= 2 ^ 52 * fone 8 in
    Forall2 (fun x y => small x -> rounded_value is_trunc x y /\ (is_Finite x = true -> sign_bit y = sign_bit x)) xs (lanes 8 (v_trunc false 8 (pack xs))) /\
    Forall2 (fun x y => small x -> rounded_value is_floor x y) xs (lanes 8 (v_floor false 8 (pack xs))) /\
    Forall2 (fun x y => small x -> rounded_value is_ceil x y) xs (lanes 8 (v_ceil false 8 (pack xs))).
Proof. exact MathMain.C36_sse2_double_partial_main. Qed.
Print Assumptions C36_sse2_double_partial.

Example C36_sse2_double_partial_ex :
  let v := pack (map (mkw 8) [0xc004000000000000; 0x432ffffffffffffd]) in
  map (fun r => map uval (lanes 8 r)) [v_trunc false 8 v; v_floor false 8 v; v_ceil false 8 v] =
  [[0xc000000000000000; 0x432ffffffffffffc]; [0xc008000000000000; 0x432ffffffffffffc]; [0xc000000000000000; 0x432ffffffffffffe]].
Proof.
  vm_compute. reflexivity.
Qed.

(** C36, SSE2 builds: the doubles 2 ^ 52 + 1 and - (2 ^ 52 + 1) are integers, but trunc moves both towards zero, floor
decreases the first and ceil increases the second. *)
Theorem C36_sse2_double_refuted :
  exists x y : word 8, has_value x (2 ^ 52 + 1) /\ has_value y (- (2 ^ 52 + 1)) /\
    map fvalue (lanes 8 (v_trunc false 8 (pack [x; y]))) = [2 ^ 52 * fone 8; - 2 ^ 52 * fone 8] /\
    map fvalue (lanes 8 (v_floor false 8 (pack [x; y]))) = [2 ^ 52 * fone 8; - (2 ^ 52 + 1) * fone 8] /\
    map fvalue (lanes 8 (v_ceil false 8 (pack [x; y]))) = [(2 ^ 52 + 1) * fone 8; - 2 ^ 52 * fone 8].
Proof. exact MathMain.C36_sse2_double_refuted_main. Qed.
Print Assumptions C36_sse2_double_refuted.

Example C36_sse2_double_refuted_ex :
  map uval (lanes 8 (v_trunc false 8 (pack [mkw 8 0x4330000000000001; mkw 8 0x3ff8000000000000]))) = [0x4330000000000000; 0x3ff0000000000000].
Proof.
  vm_compute. reflexivity.
Qed.

(** C36, SSE2 builds: trunc and ceil of the float -0.25 are +0 instead of -0 (SSE4.1 builds return -0). *)
Theorem C36_sse2_zero_refuted :
  exists x : word 4, is_Finite x = true /\ sign_bit x = true /\
    map sign_bit (lanes 4 (v_trunc false 4 (pack [x; x; x; x]))) = [false; false; false; false] /\
    map sign_bit (lanes 4 (v_ceil false 4 (pack [x; x; x; x]))) = [false; false; false; false].
Proof. exact MathMain.C36_sse2_zero_refuted_main. Qed.
Print Assumptions C36_sse2_zero_refuted.

Example C36_sse2_zero_refuted_ex :
  map uval (lanes 4 (v_trunc false 4 (pack (map (mkw 4) [0xbe800000; 0x80000000; 0xbf800000; 0])))) = [0; 0; 0xbf800000; 0].
Proof.
  vm_compute. reflexivity.
Qed.

(** C36, SSE2 builds: round returns the nearest integer (ties to even) for every entry whose value is in the range of int.
Missing: other entries, for which the claim is false, see C36_sse2_round_refuted. *)
Theorem C36_sse2_round_partial :
  forall w (xs : list (word w)), w = 4%nat \/ w = 8%nat -> length xs = (16 / w)%nat ->
    Forall2 (fun x y => is_Finite x = true -> - 2 ^ 31 * fone w <= fvalue x <= (2 ^ 31 - 1) * fone w ->
                        exists z, is_round (fvalue x) (fone w) z /\ has_value y z)
            xs (lanes w (v_round false w (pack xs))).
Proof. exact MathMain.C36_sse2_round_partial_main. Qed.
Print Assumptions C36_sse2_round_partial.

Example C36_sse2_round_partial_ex :
  map uval (lanes 4 (v_round false 4 (pack (map (mkw 4) [0x40200000; 0x40600000; 0xbfc00000; 0x4effffff])))) = [0x40000000; 0x40800000; 0xc0000000; 0x4effffff].
Proof.
  vm_compute. reflexivity.
Qed.

(** C36, SSE2 builds: round of the float 3 * 10 ^ 9 is - 2 ^ 31. *)
Theorem C36_sse2_round_refuted :
  exists x : word 4, has_value x (3 * 10 ^ 9) /\
    forall y, In y (lanes 4 (v_round false 4 (pack [x; x; x; x]))) -> has_value y (- 2 ^ 31).
Proof. exact MathMain.C36_sse2_round_refuted_main. Qed.
Print Assumptions C36_sse2_round_refuted.

Example C36_sse2_round_refuted_ex :
  map uval (lanes 4 (v_round false 4 (pack (map (mkw 4) [0x4f32d05e; 0x3f800000; 0x7f800000; 0])))) = [0xcf000000; 0x3f800000; 0xcf000000; 0].
Proof.
  vm_compute. reflexivity.
Qed.

(** C37: frexp of float_v and double_v: for every normal entry x the result m and exponent e satisfy 0.5 <= |m| < 1 and
x = m * 2 ^ e; zero is returned with exponent 0; infinities and NaN are returned. *)
Theorem C37_frexp :
  forall sse41,
    (forall xs, length xs = 4%nat -> let (m, e) := v_frexp_ps sse41 (pack xs) in
       length (lanes 4 m) = 4%nat /\ length (lanes 4 e) = 4%nat /\
       Forall2 (fun x me => frexp_ok x (fst me) (sval (snd me))) xs (combine (lanes 4 m) (lanes 4 e))) /\
    (forall x0 x1, let '(m, (e0, e1)) := v_frexp_pd sse41 (pack [x0; x1]) in
       exists m0 m1, lanes 8 m = [m0; m1] /\ frexp_ok x0 m0 (sval e0) /\ frexp_ok x1 m1 (sval e1)).
Proof. exact MathMain.C37_frexp_main. Qed.
Print Assumptions C37_frexp.

Example C37_frexp_ex :
  (let (m, e) := v_frexp_ps false (pack (map (mkw 4) [0x40400000; 0x80000000; 0xbf000000; 0x7f800000])) in (map uval (lanes 4 m), map sval (firstn 3 (lanes 4 e)))) =
  ([0x3f400000; 0x80000000; 0xbf000000; 0x7f800000], [2; 0; 0]).
Proof.
  vm_compute. reflexivity.
Qed.

(** C37: ldexp of float_v and double_v: for every normal entry x and every exponent e for which x * 2 ^ e is in the normal
range the result is exactly x * 2 ^ e; zeros are returned. *)
Theorem C37_ldexp :
  let ok (w : nat) x e y := (is_Normal x = true -> ldexp_in_range x e -> is_Finite y = true /\ scaled_by x e y) /\ (is_Finite x = true -> @fvalue w x = 0 -> y = x) in
  (forall xs es : list (word 4), length xs = 4%nat -> length es = 4%nat ->
     Forall2 (fun xe y => ok 4%nat (fst xe) (sval (snd xe)) y) (combine xs es) (lanes 4 (v_ldexp_ps (pack xs) (pack es)))) /\
  (forall x0 x1 e0 e1, exists y0 y1, lanes 8 (v_ldexp_pd (pack [x0; x1]) e0 e1) = [y0; y1] /\ ok 8%nat x0 (sval e0) y0 /\ ok 8%nat x1 (sval e1) y1).
Proof. exact MathMain.C37_ldexp_main. Qed.
Print Assumptions C37_ldexp.

Example C37_ldexp_ex :
  map uval (lanes 4 (v_ldexp_ps (pack (map (mkw 4) [0x3f400000; 0x80000000; 0xbf000000; 0x3f800000])) (pack (map (mkw 4) [2; 7; -3; 100])))) =
  [0x40400000; 0x80000000; 0xbd800000; 0x71800000].
Proof.
  vm_compute. reflexivity.
Qed.

(** C37: ldexp(m, e) with m and e returned by frexp is the original vector, for all finite entries (also denormal ones). *)
Theorem C37_round_trip :
  forall sse41,
    (forall xs : list (word 4), length xs = 4%nat -> Forall (fun x => is_Finite x = true) xs ->
       let (m, e) := v_frexp_ps sse41 (pack xs) in v_ldexp_ps m e = pack xs) /\
    (forall x0 x1 : word 8, is_Finite x0 = true -> is_Finite x1 = true ->
       let '(m, (e0, e1)) := v_frexp_pd sse41 (pack [x0; x1]) in v_ldexp_pd m e0 e1 = pack [x0; x1]).
Proof. exact MathMain.C37_round_trip_main. Qed.
Print Assumptions C37_round_trip.

Example C37_round_trip_ex :
  Forall (fun x => is_Finite x = true) (map (mkw 4) [0x40400000; 1; 0x80000000; 0xff7fffff]).
Proof.
  repeat constructor.
Qed.

(** C37: exponent(x) is the value floor(log2 x), for every positive normal entry, for the SSE and the scalar vectors. *)
Theorem C37_exponent :
  let ok (w : nat) (x y : word w) := is_Normal x = true -> sign_bit x = false -> exists k, is_log2 x k /\ has_value y k in
  (forall xs : list (word 4), length xs = 4%nat -> Forall2 (ok 4%nat) xs (lanes 4 (v_exponent 4 (pack xs)))) /\
  (forall xs : list (word 8), length xs = 2%nat -> Forall2 (ok 8%nat) xs (lanes 8 (v_exponent 8 (pack xs)))) /\
  (forall w (x : word w), w = 4%nat \/ w = 8%nat -> ok w x (s_exponent w x)).
Proof. exact MathMain.C37_exponent_main. Qed.
Print Assumptions C37_exponent.

Example C37_exponent_ex :
  map uval (lanes 4 (v_exponent 4 (pack (map (mkw 4) [0x40400000; 0x3f800000; 0x3e000000; 0x7f7fffff])))) = [0x3f800000; 0; 0xc0400000; 0x42fe0000].
Proof.
  vm_compute. reflexivity.
Qed.

(** C40: whatever the generator state and however many random vectors have been drawn from it, all entries of
float_v::Random() are finite and in [0, 1) (in SSE2 and SSE4.1 builds). *)
Theorem C40_random_float :
  forall sse41 s n, length s = 16%nat ->
    Forall in_unit_interval (lanes 4 (fst (random_ps sse41 (Nat.iter n (fun s => snd (random_ps sse41 s)) s)))).
Proof. exact MathMain.C40_random_float_main. Qed.
Print Assumptions C40_random_float.

Example C40_random_float_ex :
  map uval (lanes 4 (fst (random_ps false (snd (random_ps false (map (mkw 4) [1; 2; 3; 4; 5; 6; 7; 8; 9; 10; 11; 12; 13; 14; 15; 16])))))) =
  [1055712888; 1064101490; 1053209424; 1062849758].
Proof.
  vm_compute. reflexivity.
Qed.

(** C40: the same for double_v::Random(). *)
Theorem C40_random_double :
  forall s n, length s = 16%nat ->
    Forall in_unit_interval (lanes 8 (fst (random_pd (Nat.iter n (fun s => snd (random_pd s)) s)))).
Proof. exact MathMain.C40_random_double_main. Qed.
Print Assumptions C40_random_double.

Example C40_random_double_ex :
  forallb (fun y => Z.ltb 0 (fvalue y)) (lanes 8 (fst (random_pd (snd (random_pd (map (mkw 4) [1; 2; 3; 4; 5; 6; 7; 8; 9; 10; 11; 12; 13; 14; 15; 16])))))) = true.
Proof.
  vm_compute. reflexivity.
Qed.

(** C40: one step of the generator changes only its own eight words and loses nothing: different states stay different
(so the sequence of states is purely periodic). *)
Theorem C40_random_state :
  forall sse41 s t, length s = 16%nat -> length t = 16%nat ->
    let next s := snd (random_ps sse41 s) in
    length (next s) = 16%nat /\ skipn 8 (next s) = skipn 8 s /\ (next s = next t -> s = t).
Proof. exact MathMain.C40_random_state_main. Qed.
Print Assumptions C40_random_state.

Example C40_random_state_ex :
  map uval (snd (random_ps true (map (mkw 4) [1; 2; 3; 4; 5; 6; 7; 8; 9; 10; 11; 12; 13; 14; 15; 16]))) =
  [3740067448; 3185167589; 2630267730; 2075367871; 1520468012; 965568153; 410668294; 4150735731; 9; 10; 11; 12; 13; 14; 15; 16].
Proof.
  vm_compute. reflexivity.
Qed.

(** C40: the Random() functions of the scalar float_v and double_v return finite values in [0, 1) for every generator state. *)
Theorem C40_random_scalar :
  forall s, in_unit_interval (fst (s_random_float s)) /\ in_unit_interval (fst (s_random_double s)).
Proof. exact MathMain.C40_random_scalar_main. Qed.
Print Assumptions C40_random_scalar.

Example C40_random_scalar_ex :
  map uval [fst (s_random_float (map (mkw 4) [0xffffffff; 1; 2; 3])); fst (s_random_float (map (mkw 4) [0x40; 1; 2; 3]))] = [0x3f7ffffe; 0x37000000].
Proof.
  vm_compute. reflexivity.
Qed.

(** C47: fma of float_v (without FMA instructions) for finite entries: a * b + c is first rounded once to double and then
once to float; it is therefore the correctly rounded a * b + c whenever the exact value is a double.  Missing: correct
rounding in all cases, which is false, see C47_fma_float_refuted. *)
Theorem C47_fma_float_partial :
  forall xs ys zs : list (word 4), length xs = 4%nat -> length ys = 4%nat -> length zs = 4%nat ->
    Forall2 (fun abc r => let '(a, (b, c)) := abc in is_Finite a = true -> is_Finite b = true -> is_Finite c = true ->
               (exists t : word 8, nearest t (fma_exact a b c * 2 ^ 776) 1 /\ rounded r (sign_bit t) (Z.abs (fvalue t)) (2 ^ 925)) /\
               ((exists t : word 8, is_Finite t = true /\ fvalue t = fma_exact a b c * 2 ^ 776) ->
                exists neg, (fma_exact a b c <> 0 -> neg = (fma_exact a b c <? 0)) /\ rounded r neg (Z.abs (fma_exact a b c)) (fone 4)))
            (combine xs (combine ys zs)) (lanes 4 (v_fma_ps (pack xs) (pack ys) (pack zs))).
Proof. exact MathMain.C47_fma_float_partial_main. Qed.
Print Assumptions C47_fma_float_partial.

Example C47_fma_float_partial_ex :
  map uval (lanes 4 (v_fma_ps (pack (map (mkw 4) [0x40400000; 0x3f800001; 0; 0xbf800000])) (pack (map (mkw 4) [0x3f000000; 0x3f800001; 0xff7fffff; 0x7f7fffff])) (pack (map (mkw 4) [0x3f800000; 0xbf800002; 0x80000000; 0x7f7fffff])))) =
  [0x40200000; 0x28800000; 0x80000000; 0].
Proof.
  vm_compute. reflexivity.
Qed.

(** C47: fma(257, 65281, 2 ^ -60) of float_v is 2 ^ 24, but 2 ^ 24 + 2 is nearer to the exact value 2 ^ 24 + 1 + 2 ^ -60. *)
Theorem C47_fma_float_refuted :
  exists a b c : word 4, has_value a 257 /\ has_value b 65281 /\ is_Finite c = true /\ fvalue c * 2 ^ 60 = fone 4 /\
    Forall (fun r => is_Finite r = true /\ ~ nearest r (fma_exact a b c) (fone 4)) (lanes 4 (v_fma_ps (pack [a; a; a; a]) (pack [b; b; b; b]) (pack [c; c; c; c]))).
Proof. exact MathMain.C47_fma_float_refuted_main. Qed.
Print Assumptions C47_fma_float_refuted.

Example C47_fma_float_refuted_ex :
  map uval (lanes 4 (v_fma_ps (set1 4 0x43808000) (set1 4 0x477f0100) (set1 4 0x21800000))) = [0x4b800000; 0x4b800000; 0x4b800000; 0x4b800000].
Proof.
  vm_compute. reflexivity.
Qed.

(** C47: fma of double_v (without FMA instructions) is the correctly rounded a * b + c if the low 27 fraction bits of a and b
are zero, a * b is representable and the result does not overflow.  Missing: other arguments; the claim is false for
them, see C47_fma_double_refuted. *)
Theorem C47_fma_double_partial :
  forall sse41 (a b c : list (word 8)), length a = 2%nat -> length b = 2%nat -> length c = 2%nat ->
    Forall2 (fun abc r => let '(a, (b, c)) := abc in is_Finite a = true -> is_Finite b = true -> is_Finite c = true ->
               fraction a mod 2 ^ 27 = 0 -> fraction b mod 2 ^ 27 = 0 ->
               (exists p : word 8, is_Finite p = true /\ fvalue p * fone 8 = fvalue a * fvalue b) ->
               Z.abs (fma_exact a b c) < overflow_at 8 * fone 8 -> nearest r (fma_exact a b c) (fone 8))
            (combine a (combine b c)) (lanes 8 (v_fma_pd sse41 (pack a) (pack b) (pack c))).
Proof. exact MathMain.C47_fma_double_partial_main. Qed.
Print Assumptions C47_fma_double_partial.

Example C47_fma_double_partial_ex :
  map uval (lanes 8 (v_fma_pd false (pack (map (mkw 8) [0x4008000000000000; 0x3ff8000000000000])) (pack (map (mkw 8) [0x3fe0000000000000; 0x3ff8000000000000])) (pack (map (mkw 8) [0x3ca0000000000000; 0xc002000000000000])))) =
  [0x3ff8000000000000; 0].
Proof.
  vm_compute. reflexivity.
Qed.

(** C47: fma(a, a, c) of double_v with a = 1 + 2 ^ -52 and c = -(1 + 2 ^ -51) is 0 although the exact value is 2 ^ -104. *)
Theorem C47_fma_double_refuted :
  exists a c : word 8, is_Finite a = true /\ is_Finite c = true /\ fma_exact a a c * 2 ^ 104 = fone 8 * fone 8 /\
    forall sse41, map fvalue (lanes 8 (v_fma_pd sse41 (pack [a; a]) (pack [a; a]) (pack [c; c]))) = [0; 0].
Proof. exact MathMain.C47_fma_double_refuted_main. Qed.
Print Assumptions C47_fma_double_refuted.

Example C47_fma_double_refuted_ex :
  map uval (lanes 8 (v_fma_pd true (set1 8 0x3ff0000000000001) (set1 8 0x3ff0000000000001) (set1 8 0xbff0000000000002))) = [0; 0].
Proof.
  vm_compute. reflexivity.
Qed.

(** C47: fma of the integer vectors is a * b + c modulo 2 ^ bits in every entry. *)
Theorem C47_fma_int :
  forall sse41 e (xs ys zs : list (elt e)), is_integer e = true -> length xs = (16 / esize e)%nat -> length ys = (16 / esize e)%nat -> length zs = (16 / esize e)%nat ->
    map uval (lanes (esize e) (v_fma_int sse41 e (pack xs) (pack ys) (pack zs))) =
    map3 (fun x y z => (uval x * uval y + uval z) mod 2 ^ (8 * Z.of_nat (esize e))) xs ys zs.
Proof. exact MathMain.C47_fma_int_main. Qed.
Print Assumptions C47_fma_int.

Example C47_fma_int_ex :
  map uval (lanes 2 (v_fma_int false Short (pack (map (mkw 2) [300; -1; 3; 4; 5; 6; 7; 8])) (pack (map (mkw 2) [300; 7; 3; 4; 5; 6; 7; 8])) (pack (map (mkw 2) [1; 2; 3; 4; 5; 6; 7; 8])))) =
  [24465; 65531; 12; 20; 30; 42; 56; 72].
Proof.
  vm_compute. reflexivity.
Qed.

(** C40: the Random() functions of the integer vectors return the current words of the generator and advance it exactly as
the other vectors do; in particular the state is never lost (C40_random_state). *)
Theorem C40_random_int :
  forall sse41 s, length s = 16%nat ->
    lanes 4 (fst (random_int sse41 s)) = firstn 4 s /\ snd (random_int sse41 s) = snd (random_ps sse41 s).
Proof. exact MathMain.C40_random_int_main. Qed.
Print Assumptions C40_random_int.

Example C40_random_int_ex :
  map uval (lanes 4 (fst (random_int true (snd (random_int true (map (mkw 4) [1; 2; 3; 4; 5; 6; 7; 8; 9; 10; 11; 12; 13; 14; 15; 16])))))) =
  [3740067448; 3185167589; 2630267730; 2075367871].
Proof.
  vm_compute. reflexivity.
Qed.
