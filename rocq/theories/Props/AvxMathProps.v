(** floating-point functions of the AVX vectors *)
From Coq Require Import ZArith List Bool Lia.
From Verif.Spec Require Import Seq FloatSpec RoundSpec CastSpec MathSpec.
From Verif.Model Require Import Word Fp FpArith SseReg SseMove SortNet SseInt SseBuild SseArith SseMask SimdArray Mem SseConvert SseMath AvxReg AvxMove AvxBuild AvxShuffle AvxMask AvxArith AvxConvert AvxMath.
Import ListNotations.
Local Open Scope Z_scope.
From Verif.Proof Require AvxMathMain.

(** C38, AVX vectors: isnan, isinf, isfinite and isnegative of float_v (w = 4) and double_v (w = 8) agree with the IEEE-754
classes and the sign bit for every bit pattern of every entry. *)
Theorem C38_avx_classification :
  forall w (xs : list (word w)), w = 4%nat \/ w = 8%nat -> length xs = (32 / w)%nat ->
    y_isnan w (ypack xs) = ymask_reg w (map is_NaN xs) /\
    y_isinf w (ypack xs) = ymask_reg w (map is_Inf xs) /\
    y_isfinite w (ypack xs) = ymask_reg w (map is_Finite xs) /\
    y_isnegative w (ypack xs) = ymask_reg w (map sign_bit xs).
Proof. exact AvxMathMain.C38_avx_classification_main. Qed.
Print Assumptions C38_avx_classification.

Example C38_avx_classification_ex :
  let v := ypack (map (mkw 8) [0x7ff8000000000000; 0x8000000000000000; 0xfff0000000000000; 0x3ff8000000000000]) in
  map (fun m => map (fun x => uval x =? 0) (ylanes 8 m)) [y_isnan 8 v; y_isinf 8 v; y_isfinite 8 v; y_isnegative 8 v] =
  [[false; true; true; true]; [true; true; false; true]; [true; false; true; false]; [true; false; false; true]].
Proof.
  vm_compute. reflexivity.
Qed.

(** C38, AVX vectors: abs clears the sign of every entry and keeps everything else; copysign(a, b) has the magnitude (and NaN
payload) of a and the sign of b, for all bit patterns. *)
Theorem C38_avx_abs_copysign :
  forall w (xs ys : list (word w)), w = 4%nat \/ w = 8%nat -> length xs = (32 / w)%nat -> length ys = (32 / w)%nat ->
    Forall2 (fun x y => same_magnitude x y /\ sign_bit y = false) xs (ylanes w (y_fabs w (ypack xs))) /\
    Forall2 (fun xy r => same_magnitude (fst xy) r /\ sign_bit r = sign_bit (snd xy)) (combine xs ys) (ylanes w (y_copysign w (ypack xs) (ypack ys))).
Proof. exact AvxMathMain.C38_avx_abs_copysign_main. Qed.
Print Assumptions C38_avx_abs_copysign.

Example C38_avx_abs_copysign_ex :
  map uval (ylanes 4 (y_copysign 4 (ypack (map (mkw 4) [0x3fc00000; 0x80000000; 0xff800000; 0x7fc00001; 1; 2; 3; 4])) (ypack (map (mkw 4) [0x80000000; 0; 0; 0xffc00000; 0; 0; 0x80000000; 0xffffffff])))) =
  [0xbfc00000; 0; 0x7f800000; 0xffc00001; 1; 2; 0x80000003; 0x80000004].
Proof.
  vm_compute. reflexivity.
Qed.

(** C36, AVX vectors: trunc, floor, ceil and round (to nearest, ties to even) of float_v and double_v return the
mathematically rounded value for every finite entry, keep its sign (also when the result is zero), keep infinities and
map NaN to NaN. *)
Theorem C36_avx :
  forall w (xs : list (word w)), w = 4%nat \/ w = 8%nat -> length xs = (32 / w)%nat ->
    let ok R x y := rounded_value R x y /\ (is_Finite x = true -> sign_bit y = sign_bit x) in
    Forall2 (ok is_trunc) xs (ylanes w (y_trunc w (ypack xs))) /\
    Forall2 (ok is_floor) xs (ylanes w (y_floor w (ypack xs))) /\
    Forall2 (ok is_ceil) xs (ylanes w (y_ceil w (ypack xs))) /\
    Forall2 (ok is_round) xs (ylanes w (y_round w (ypack xs))).
Proof. exact AvxMathMain.C36_avx_main. Qed.
Print Assumptions C36_avx.

Example C36_avx_ex :
  let v := ypack (map (mkw 8) [0xc004000000000000; 0x3fe0000000000000; 0xbfd0000000000000; 0xc330000000000001]) in
  map (fun r => map uval (ylanes 8 r)) [y_trunc 8 v; y_floor 8 v; y_ceil 8 v; y_round 8 v] =
  [[0xc000000000000000; 0; 0x8000000000000000; 0xc330000000000001]; [0xc008000000000000; 0; 0xbff0000000000000; 0xc330000000000001];
   [0xc000000000000000; 0x3ff0000000000000; 0x8000000000000000; 0xc330000000000001]; [0xc000000000000000; 0; 0x8000000000000000; 0xc330000000000001]].
Proof.
  vm_compute. reflexivity.
Qed.

(** C37, AVX vectors: frexp of float_v, of double_v and of SimdArray<double, 8> (which has its own implementation): for every
normal entry x the result m and exponent e satisfy 0.5 <= |m| < 1 and x = m * 2 ^ e; zero is returned with exponent 0;
infinities and NaN are returned.  In AVX2 and AVX builds, whatever unspecified register contents the code meets. *)
Theorem C37_avx_frexp :
  forall undef avx2,
    let ok (w : nat) (xs m : list (word w)) (e : list (word 4)) :=
      length m = length xs /\ length e = length xs /\ Forall2 (fun x me => frexp_ok x (fst me) (sval (snd me))) xs (combine m e) in
    (forall xs, length xs = 8%nat -> exists m e, y_frexp_ps undef avx2 (ypack xs) = Some (m, e) /\ ok 4%nat xs (ylanes 4 m) (ylanes 4 e)) /\
    (forall xs, length xs = 4%nat -> exists m e, y_frexp_pd avx2 (ypack xs) = Some (m, e) /\ ok 8%nat xs (ylanes 8 m) (lanes 4 e)) /\
    (forall xs ys, length xs = 4%nat -> length ys = 4%nat ->
       exists m0 m1 e, y_frexp_pd8 undef (ypack xs) (ypack ys) = Some (m0, m1, e) /\ ok 8%nat (xs ++ ys) (ylanes 8 m0 ++ ylanes 8 m1) (ylanes 4 e)).
Proof. exact AvxMathMain.C37_avx_frexp_main. Qed.
Print Assumptions C37_avx_frexp.

Example C37_avx_frexp_ex :
  match y_frexp_pd8 (repeat 9 16) (ypack (map (mkw 8) [0x4008000000000000; 0x8000000000000000; 0xbfe0000000000000; 0x3ff0000000000000])) (ypack (map (mkw 8) [0x4010000000000000; 0x4020000000000000; 0x3fd0000000000000; 0])) with
  | Some (m0, m1, e) => map uval (ylanes 8 m0) = [0x3fe8000000000000; 0x8000000000000000; 0xbfe0000000000000; 0x3fe0000000000000] /\ map sval (ylanes 4 e) = [2; 0; 0; 1; 3; 4; -1; 0]
  | None => False
  end.
Proof.
  vm_compute. split; reflexivity.
Qed.

(** C37, AVX vectors: ldexp of float_v and double_v: for every normal entry x and every exponent e for which x * 2 ^ e is in
the normal range the result is exactly x * 2 ^ e; zeros are returned. *)
Theorem C37_avx_ldexp :
  forall undef avx2,
    let ok (w : nat) x e y := (is_Normal x = true -> ldexp_in_range x e -> is_Finite y = true /\ scaled_by x e y) /\ (is_Finite x = true -> @fvalue w x = 0 -> y = x) in
    (forall xs es : list (word 4), length xs = 8%nat -> length es = 8%nat ->
       exists r, y_ldexp_ps undef avx2 (ypack xs) (ypack es) = Some r /\ Forall2 (fun xe y => ok 4%nat (fst xe) (sval (snd xe)) y) (combine xs es) (ylanes 4 r)) /\
    (forall (xs : list (word 8)) (es : list (word 4)), length xs = 4%nat -> length es = 4%nat ->
       exists r, y_ldexp_pd avx2 (ypack xs) (pack es) = Some r /\ Forall2 (fun xe y => ok 8%nat (fst xe) (sval (snd xe)) y) (combine xs es) (ylanes 8 r)).
Proof. exact AvxMathMain.C37_avx_ldexp_main. Qed.
Print Assumptions C37_avx_ldexp.

Example C37_avx_ldexp_ex :
  match y_ldexp_pd true (ypack (map (mkw 8) [0x3fe8000000000000; 0x8000000000000000; 0xbfe0000000000000; 0x3ff0000000000000])) (pack (map (mkw 4) [2; 7; -3; 1000])) with
  | Some r => map uval (ylanes 8 r) = [0x4008000000000000; 0x8000000000000000; 0xbfb0000000000000; 0x7e70000000000000]
  | None => False
  end.
Proof.
  vm_compute. reflexivity.
Qed.

(** C37, AVX vectors: ldexp(m, e) with m and e returned by frexp is the original vector, for all finite entries (also
denormal ones). *)
Theorem C37_avx_round_trip :
  forall undef undef' avx2,
    (forall xs : list (word 4), length xs = 8%nat -> Forall (fun x => is_Finite x = true) xs ->
       exists m e, y_frexp_ps undef avx2 (ypack xs) = Some (m, e) /\ y_ldexp_ps undef' avx2 m e = Some (ypack xs)) /\
    (forall xs : list (word 8), length xs = 4%nat -> Forall (fun x => is_Finite x = true) xs ->
       exists m e, y_frexp_pd avx2 (ypack xs) = Some (m, e) /\ y_ldexp_pd avx2 m e = Some (ypack xs)).
Proof. exact AvxMathMain.C37_avx_round_trip_main. Qed.
Print Assumptions C37_avx_round_trip.

Example C37_avx_round_trip_ex :
  Forall (fun x => is_Finite x = true) (map (mkw 8) [0x4008000000000000; 1; 0x8000000000000000; 0xffefffffffffffff]).
Proof.
  repeat constructor.
Qed.

(** C37, AVX vectors: exponent(x) is the value floor(log2 x), for every positive normal entry. *)
Theorem C37_avx_exponent :
  let ok (w : nat) (x y : word w) := is_Normal x = true -> sign_bit x = false -> exists k, is_log2 x k /\ has_value y k in
  (forall xs : list (word 4), length xs = 8%nat -> Forall2 (ok 4%nat) xs (ylanes 4 (y_exponent 4 (ypack xs)))) /\
  (forall xs : list (word 8), length xs = 4%nat -> Forall2 (ok 8%nat) xs (ylanes 8 (y_exponent 8 (ypack xs)))).
Proof. exact AvxMathMain.C37_avx_exponent_main. Qed.
Print Assumptions C37_avx_exponent.

Example C37_avx_exponent_ex :
  map uval (ylanes 8 (y_exponent 8 (ypack (map (mkw 8) [0x4008000000000000; 0x3ff0000000000000; 0x3fc0000000000000; 0x7fefffffffffffff])))) =
  [0x3ff0000000000000; 0; 0xc008000000000000; 0x408ff80000000000].
Proof.
  vm_compute. reflexivity.
Qed.

(** C40, AVX vectors: whatever the generator state and however many random vectors have been drawn from it, all entries of
float_v::Random() are finite and in [0, 1) (in AVX and AVX2 builds). *)
Theorem C40_avx_random_float :
  forall avx2 s n, length s = 16%nat ->
    Forall in_unit_interval (ylanes 4 (fst (yrandom_ps avx2 (Nat.iter n (fun s => snd (yrandom_ps avx2 s)) s)))).
Proof. exact AvxMathMain.C40_avx_random_float_main. Qed.
Print Assumptions C40_avx_random_float.

Example C40_avx_random_float_ex :
  map (fun y => Z.ltb 0 (fvalue y)) (ylanes 4 (fst (yrandom_ps false (snd (yrandom_ps false (map (mkw 4) [1; 2; 3; 4; 5; 6; 7; 8; 9; 10; 11; 12; 13; 14; 15; 16])))))) =
  [true; true; true; true; true; true; true; true].
Proof.
  vm_compute. reflexivity.
Qed.

(** C40, AVX vectors: the same for double_v::Random(). *)
Theorem C40_avx_random_double :
  forall s n, length s = 16%nat ->
    Forall in_unit_interval (ylanes 8 (fst (yrandom_pd (Nat.iter n (fun s => snd (yrandom_pd s)) s)))).
Proof. exact AvxMathMain.C40_avx_random_double_main. Qed.
Print Assumptions C40_avx_random_double.

Example C40_avx_random_double_ex :
  forallb (fun y => Z.ltb 0 (fvalue y)) (ylanes 8 (fst (yrandom_pd (snd (yrandom_pd (map (mkw 4) [1; 2; 3; 4; 5; 6; 7; 8; 9; 10; 11; 12; 13; 14; 15; 16])))))) = true.
Proof.
  vm_compute. reflexivity.
Qed.

(** C40, AVX vectors: the step of the generator is the same in AVX and AVX2 builds, and different states stay different (so
the sequence of states is purely periodic); the integer vectors return the first eight words of the state. *)
Theorem C40_avx_random_state :
  forall s t, length s = 16%nat -> length t = 16%nat ->
    let next s := snd (yrandom_ps true s) in
    length (next s) = 16%nat /\ next s = snd (yrandom_ps false s) /\ (next s = next t -> s = t) /\
    ylanes 4 (fst (yrandom_int s)) = firstn 8 s /\ snd (yrandom_int s) = next s.
Proof. exact AvxMathMain.C40_avx_random_state_main. Qed.
Print Assumptions C40_avx_random_state.

Example C40_avx_random_state_ex :
  map uval (snd (yrandom_ps true (map (mkw 4) [1; 2; 3; 4; 5; 6; 7; 8; 0x90000; 10; 11; 12; 13; 14; 15; 16]))) =
  map uval (snd (yrandom_ps false (map (mkw 4) [1; 2; 3; 4; 5; 6; 7; 8; 0x90000; 10; 11; 12; 13; 14; 15; 16]))).
Proof.
  vm_compute. reflexivity.
Qed.

(** C47, AVX vectors without FMA instructions: fma of float_v for finite entries: a * b + c is first rounded once to double
and then once to float; it is therefore the correctly rounded a * b + c whenever the exact value is a double.  Missing:
correct rounding in all cases, which is false, see C47_avx_fma_float_refuted. *)
Theorem C47_avx_fma_float_partial :
  forall xs ys zs : list (word 4), length xs = 8%nat -> length ys = 8%nat -> length zs = 8%nat ->
    Forall2 (fun abc r => let '(a, (b, c)) := abc in is_Finite a = true -> is_Finite b = true -> is_Finite c = true ->
               (exists t : word 8, nearest t (fma_exact a b c * 2 ^ 776) 1 /\ rounded r (sign_bit t) (Z.abs (fvalue t)) (2 ^ 925)) /\
               ((exists t : word 8, is_Finite t = true /\ fvalue t = fma_exact a b c * 2 ^ 776) ->
                exists neg, (fma_exact a b c <> 0 -> neg = (fma_exact a b c <? 0)) /\ rounded r neg (Z.abs (fma_exact a b c)) (fone 4)))
            (combine xs (combine ys zs)) (ylanes 4 (y_fma_ps (ypack xs) (ypack ys) (ypack zs))).
Proof. exact AvxMathMain.C47_avx_fma_float_partial_main. Qed.
Print Assumptions C47_avx_fma_float_partial.

Example C47_avx_fma_float_partial_ex :
  map uval (ylanes 4 (y_fma_ps (ypack (map (mkw 4) [0x40400000; 0x3f800001; 0; 0xbf800000; 0; 0; 0x40400000; 0])) (ypack (map (mkw 4) [0x3f000000; 0x3f800001; 0xff7fffff; 0x7f7fffff; 0; 0; 0x40400000; 0])) (ypack (map (mkw 4) [0x3f800000; 0xbf800002; 0x80000000; 0x7f7fffff; 7; 0; 0x40400000; 0])))) =
  [0x40200000; 0x28800000; 0x80000000; 0; 7; 0; 0x41400000; 0].
Proof.
  vm_compute. reflexivity.
Qed.

(** C47, AVX vectors without FMA instructions: fma(257, 65281, 2 ^ -60) of float_v is 2 ^ 24, but 2 ^ 24 + 2 is nearer to the
exact value 2 ^ 24 + 1 + 2 ^ -60. *)
Theorem C47_avx_fma_float_refuted :
  exists a b c : word 4, has_value a 257 /\ has_value b 65281 /\ is_Finite c = true /\ fvalue c * 2 ^ 60 = fone 4 /\
    Forall (fun r => is_Finite r = true /\ ~ nearest r (fma_exact a b c) (fone 4)) (ylanes 4 (y_fma_ps (ypack (repeat a 8)) (ypack (repeat b 8)) (ypack (repeat c 8)))).
Proof. exact AvxMathMain.C47_avx_fma_float_refuted_main. Qed.
Print Assumptions C47_avx_fma_float_refuted.

Example C47_avx_fma_float_refuted_ex :
  map uval (ylanes 4 (y_fma_ps (yset1 4 0x43808000) (yset1 4 0x477f0100) (yset1 4 0x21800000))) = repeat 0x4b800000 8.
Proof.
  vm_compute. reflexivity.
Qed.

(** C47, AVX vectors without FMA instructions: fma of double_v is the correctly rounded a * b + c if the low 27 fraction bits
of a and b are zero, a * b is representable and the result does not overflow.  Missing: other arguments; the claim is
false for them, see C47_avx_fma_double_refuted. *)
Theorem C47_avx_fma_double_partial :
  forall a b c : list (word 8), length a = 4%nat -> length b = 4%nat -> length c = 4%nat ->
    Forall2 (fun abc r => let '(a, (b, c)) := abc in is_Finite a = true -> is_Finite b = true -> is_Finite c = true ->
               fraction a mod 2 ^ 27 = 0 -> fraction b mod 2 ^ 27 = 0 ->
               (exists p : word 8, is_Finite p = true /\ fvalue p * fone 8 = fvalue a * fvalue b) ->
               Z.abs (fma_exact a b c) < overflow_at 8 * fone 8 -> nearest r (fma_exact a b c) (fone 8))
            (combine a (combine b c)) (ylanes 8 (y_fma_pd (ypack a) (ypack b) (ypack c))).
Proof. exact AvxMathMain.C47_avx_fma_double_partial_main. Qed.
Print Assumptions C47_avx_fma_double_partial.

Example C47_avx_fma_double_partial_ex :
  map uval (ylanes 8 (y_fma_pd (ypack (map (mkw 8) [0x4008000000000000; 0x3ff8000000000000; 0; 0])) (ypack (map (mkw 8) [0x3fe0000000000000; 0x3ff8000000000000; 0; 0])) (ypack (map (mkw 8) [0x3ca0000000000000; 0xc002000000000000; 5; 0])))) =
  [0x3ff8000000000000; 0; 5; 0].
Proof.
  vm_compute. reflexivity.
Qed.

(** C47, AVX vectors without FMA instructions: fma(a, a, c) of double_v with a = 1 + 2 ^ -52 and c = -(1 + 2 ^ -51) is 0
although the exact value is 2 ^ -104. *)
Theorem C47_avx_fma_double_refuted :
  exists a c : word 8, is_Finite a = true /\ is_Finite c = true /\ fma_exact a a c * 2 ^ 104 = fone 8 * fone 8 /\
    map fvalue (ylanes 8 (y_fma_pd (ypack [a; a; a; a]) (ypack [a; a; a; a]) (ypack [c; c; c; c]))) = [0; 0; 0; 0].
Proof. exact AvxMathMain.C47_avx_fma_double_refuted_main. Qed.
Print Assumptions C47_avx_fma_double_refuted.

Example C47_avx_fma_double_refuted_ex :
  map uval (ylanes 8 (y_fma_pd (yset1 8 0x3ff0000000000001) (yset1 8 0x3ff0000000000001) (yset1 8 0xbff0000000000002))) = [0; 0; 0; 0].
Proof.
  vm_compute. reflexivity.
Qed.

(** C47, AVX vectors: fma of the integer vectors is a * b + c modulo 2 ^ bits in every entry. *)
Theorem C47_avx_fma_int :
  forall e (xs ys zs : list (elt e)), is_integer e = true -> length xs = (32 / esize e)%nat -> length ys = (32 / esize e)%nat -> length zs = (32 / esize e)%nat ->
    map uval (ylanes (esize e) (y_fma_int e (ypack xs) (ypack ys) (ypack zs))) =
    map3 (fun x y z => (uval x * uval y + uval z) mod 2 ^ (8 * Z.of_nat (esize e))) xs ys zs.
Proof. exact AvxMathMain.C47_avx_fma_int_main. Qed.
Print Assumptions C47_avx_fma_int.

Example C47_avx_fma_int_ex :
  map uval (ylanes 4 (y_fma_int Int (ypack (map (mkw 4) [300000; -1; 3; 4; 5; 6; 7; 8])) (ypack (map (mkw 4) [300000; 7; 3; 4; 5; 6; 7; 8])) (ypack (map (mkw 4) [1; 2; 3; 4; 5; 6; 7; 8])))) =
  [90000000001 mod 2 ^ 32; 2 ^ 32 - 5; 12; 20; 30; 42; 56; 72].
Proof.
  vm_compute. reflexivity.
Qed.
