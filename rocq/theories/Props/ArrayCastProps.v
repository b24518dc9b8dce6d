(** simd_cast from and to SimdArray, the converting constructors and conversion operators of SimdArray *)
From Coq Require Import ZArith List Bool Lia Arith.
From Verif.Spec Require Import Seq FloatSpec RoundSpec CastSpec NativeSpec ArrayCastSpec NativeCastSpec.
From Verif.Model Require Import SplitSize SimdArray SimdArrayOps Word Fp FpArith SseReg SseMove SseBuild AvxMove AvxBuild ArrayCast NativeCast.
Import ListNotations.
Local Open Scope nat_scope.
From Verif.Proof Require ArrayCastMain.

(** C58: simd_cast<Return>(x0, x1, ...), for arguments of any number n of entries (SimdArrays of the same type), Return a native
vector or a SimdArray of any size m, in every build whose native vectors convert and shift correctly: it is defined, has m
entries, and entry i is the conversion of entry i of x0, x1, ... (counted through); the entries after the last are padding
(zero).  The last argument must not be superfluous ((number of arguments - 1) * n < m), or there is one argument. *)
Theorem C58_simd_cast :
  forall (A B : Type) native_from native_to (moves : native_ops A) (ops : cast_ops A B) zeroA zeroB R pad,
    widths_ok native_from -> widths_ok native_to -> native_moves_ok native_from zeroA moves ->
    native_casts_ok native_from native_to zeroA zeroB R pad ops ->
    forall r n xs, xs <> [] -> (forall x, In x xs -> wf native_from n x) -> valid_target native_to r ->
      length xs = 1 \/ (length xs - 1) * n < target_size r ->
      exists t, array_cast native_from native_to moves ops zeroA zeroB r xs = Some t /\ wf native_to (target_size r) t /\
                converts R pad (target_size r) 0 (concat (map to_list xs)) (to_list t).
Proof. exact ArrayCastMain.C58_simd_cast_main. Qed.
Print Assumptions C58_simd_cast.

Example C58_simd_cast_ex :
  let x i := generate (sse_native 4) 5 (fun k => mkw 4 (70000 * (i + k))) in
  option_map (fun t => map sval (to_list t)) (array_cast (sse_native 4) (sse_native 2) (sse_build false Int wadd) (sse_casts 0 false Int Short) (w0 4) (w0 2) (ToArray 12) [x 0%Z; x 5%Z; x 10%Z])
  = Some (map (fun k => sval (mkw 2 (70000 * k))) [0; 1; 2; 3; 4; 5; 6; 7; 8; 9; 10; 11])%Z.
Proof.
  vm_compute. reflexivity.
Qed.

(** C58: simd_cast<Return, k>(x), Return with m entries: it is defined, and entry i is the conversion of entry k * m + i of x
(padding past the end of x).  Proved if the number of entries of x or of Return is a power of two, in particular for every
native vector type Return; missing: SimdArrays where neither is (see C58_simd_cast_offset_refuted). *)
Theorem C58_simd_cast_offset_partial :
  forall (A B : Type) native_from native_to (moves : native_ops A) (ops : cast_ops A B) zeroA zeroB R pad,
    widths_ok native_from -> widths_ok native_to -> native_moves_ok native_from zeroA moves ->
    native_casts_ok native_from native_to zeroA zeroB R pad ops ->
    forall r n k x, wf native_from n x -> valid_target native_to r -> k * target_size r < n ->
      power_of_two n \/ power_of_two (target_size r) ->
      exists t, array_cast_offset native_from native_to moves ops zeroA zeroB r k x = Some t /\ wf native_to (target_size r) t /\
                converts R pad (target_size r) (k * target_size r) (to_list x) (to_list t).
Proof. exact ArrayCastMain.C58_simd_cast_offset_partial_main. Qed.
Print Assumptions C58_simd_cast_offset_partial.

Example C58_simd_cast_offset_partial_ex :
  let x := generate (sse_native 8) 13 (fun k => of_int 8 (3 * k)) in
  wf (sse_native 8) 13 x /\ power_of_two 4 /\
  option_map (fun t => map sval (to_list t)) (array_cast_offset (sse_native 8) (sse_native 2) (sse_build false Double fadd) (sse_casts 0 false Double Short) (w0 8) (w0 2) (ToArray 4) 3 x)
  = Some [36; 0; 0; 0]%Z.
Proof.
  cbv zeta. split; [apply (ArrayCastMain.generated_wf Double); lia|]. split; [now exists 2|]. vm_compute. reflexivity.
Qed.

(** C58: the condition is needed: simd_cast<SimdArray<short, 10>, 1>(x) for x a SimdArray<double, 13> is not defined, although
entries 10, 11 and 12 of x exist, because the shift of x by two reads past the end of its second half. *)
Theorem C58_simd_cast_offset_refuted :
  forall ssse3 sse41 undef add x, wf (sse_native 8) 13 x ->
    array_cast_offset (sse_native 8) (sse_native 2) (sse_build ssse3 Double add) (sse_casts undef sse41 Double Short) (w0 8) (w0 2) (ToArray 10) 1 x = None /\
    1 * target_size (ToArray 10) < 13.
Proof. exact ArrayCastMain.C58_simd_cast_offset_refuted_main. Qed.
Print Assumptions C58_simd_cast_offset_refuted.

Example C58_simd_cast_offset_refuted_ex :
  wf (sse_native 8) 13 (generate (sse_native 8) 13 (fun k => of_int 8 k)).
Proof.
  apply (ArrayCastMain.generated_wf Double); lia.
Qed.

(** C58: the same for native vectors as arguments: simd_cast<Return>(v0, v1, ...) and simd_cast<Return, k>(v), Return a native
vector or a SimdArray of any size m. *)
Theorem C58_vector_cast :
  forall (A B : Type) native_from native_to (moves : native_ops A) (ops : cast_ops A B) zeroA zeroB R pad,
    widths_ok native_from -> widths_ok native_to -> native_moves_ok native_from zeroA moves ->
    native_casts_ok native_from native_to zeroA zeroB R pad ops ->
    forall r n, native_from n = true -> valid_target native_to r ->
      (forall vs, vs <> [] -> (forall v, In v vs -> length v = n) -> length vs = 1 \/ (length vs - 1) * n < target_size r ->
        exists t, vector_cast native_from native_to moves ops zeroA zeroB r vs = Some t /\ wf native_to (target_size r) t /\
                  converts R pad (target_size r) 0 (concat vs) (to_list t)) /\
      (forall k v, length v = n -> k * target_size r < n ->
        exists t, vector_cast_offset native_from native_to moves ops zeroA zeroB r k v = Some t /\ wf native_to (target_size r) t /\
                  converts R pad (target_size r) (k * target_size r) v (to_list t)).
Proof. exact ArrayCastMain.C58_vector_cast_main. Qed.
Print Assumptions C58_vector_cast.

Example C58_vector_cast_ex :
  let v i := map (mkw 2) (map (fun k => 10 * i + k)%Z [1; 2; 3; 4; 5; 6; 7; 8]%Z) in
  option_map (fun t => map sval (to_list t)) (vector_cast (sse_native 2) (sse_native 4) (sse_build false Short wadd) (sse_casts 0 false Short Int) (w0 2) (w0 4) (ToArray 11) [v 0%Z; v 1%Z])
  = Some [1; 2; 3; 4; 5; 6; 7; 8; 11; 12; 13]%Z /\
  option_map (fun t => map sval (to_list t)) (vector_cast_offset (sse_native 2) (sse_native 4) (sse_build false Short wadd) (sse_casts 0 false Short Int) (w0 2) (w0 4) (ToArray 3) 2 (v 0%Z))
  = Some [7; 8; 0]%Z.
Proof.
  vm_compute. split; reflexivity.
Qed.

(** C58: in every SSE build (SSE2, SSSE3, SSE4.1), for all element types (short, ushort, int, uint, float, double) and all sizes:
simd_cast<Return>(x0, x1, ...) and simd_cast<Return, k>(x) of SimdArrays are defined and convert every entry like
static_cast, the entries after the last are zero.  Floating point entries of 32768 and more converted to ushort are left
open (see C58_simd_cast_ushort_refuted); double to uint needs SSE4.1 (see C46). *)
Theorem C58_sse_simd_cast :
  forall undef ssse3 sse41 from to add, ~ (sse41 = false /\ from = Double /\ to = UInt) ->
    let cast := array_cast (sse_native (esize from)) (sse_native (esize to)) (sse_build ssse3 from add) (sse_casts undef sse41 from to) (w0 (esize from)) (w0 (esize to)) in
    let cast_offset := array_cast_offset (sse_native (esize from)) (sse_native (esize to)) (sse_build ssse3 from add) (sse_casts undef sse41 from to) (w0 (esize from)) (w0 (esize to)) in
    forall r n, valid_target (sse_native (esize to)) r ->
      (forall xs, xs <> [] -> (forall x, In x xs -> wf (sse_native (esize from)) n x) -> length xs = 1 \/ (length xs - 1) * n < target_size r ->
        exists t, cast r xs = Some t /\ wf (sse_native (esize to)) (target_size r) t /\
                  converts (array_cast_entry from to) (fun y => y = w0 (esize to)) (target_size r) 0 (concat (map to_list xs)) (to_list t)) /\
      (forall k x, wf (sse_native (esize from)) n x -> k * target_size r < n -> power_of_two n \/ power_of_two (target_size r) ->
        exists t, cast_offset r k x = Some t /\ wf (sse_native (esize to)) (target_size r) t /\
                  converts (array_cast_entry from to) (fun y => y = w0 (esize to)) (target_size r) (k * target_size r) (to_list x) (to_list t)).
Proof. exact ArrayCastMain.C58_sse_simd_cast_main. Qed.
Print Assumptions C58_sse_simd_cast.

Example C58_sse_simd_cast_ex :
  let x := generate (sse_native 4) 7 (fun k => of_int 4 (1000 - 300 * k)) in
  option_map (fun t => map sval (to_list t)) (array_cast (sse_native 4) (sse_native 2) (sse_build true Float fadd) (sse_casts 0 true Float Short) (w0 4) (w0 2) (ToVector 8) [x])
  = Some [1000; 700; 400; 100; -200; -500; -800; 0]%Z.
Proof.
  vm_compute. reflexivity.
Qed.

(** C58: the same in AVX and AVX2 builds (in which the instructions that extend a 128 bit register clear the upper half). *)
Theorem C58_avx_simd_cast :
  forall undef avx2 c from to add,
    let cast := array_cast (avx_widths_of avx2 from) (avx_widths_of avx2 to) (avx_build avx2 c from add) (avx_casts undef (repeat 0%Z 16) avx2 from to) (w0 (esize from)) (w0 (esize to)) in
    let cast_offset := array_cast_offset (avx_widths_of avx2 from) (avx_widths_of avx2 to) (avx_build avx2 c from add) (avx_casts undef (repeat 0%Z 16) avx2 from to) (w0 (esize from)) (w0 (esize to)) in
    forall r n, valid_target (avx_widths_of avx2 to) r ->
      (forall xs, xs <> [] -> (forall x, In x xs -> wf (avx_widths_of avx2 from) n x) -> length xs = 1 \/ (length xs - 1) * n < target_size r ->
        exists t, cast r xs = Some t /\ wf (avx_widths_of avx2 to) (target_size r) t /\
                  converts (array_cast_entry from to) (fun y => y = w0 (esize to)) (target_size r) 0 (concat (map to_list xs)) (to_list t)) /\
      (forall k x, wf (avx_widths_of avx2 from) n x -> k * target_size r < n -> power_of_two n \/ power_of_two (target_size r) ->
        exists t, cast_offset r k x = Some t /\ wf (avx_widths_of avx2 to) (target_size r) t /\
                  converts (array_cast_entry from to) (fun y => y = w0 (esize to)) (target_size r) (k * target_size r) (to_list x) (to_list t)).
Proof. exact ArrayCastMain.C58_avx_simd_cast_main. Qed.
Print Assumptions C58_avx_simd_cast.

Example C58_avx_simd_cast_ex :
  let x i := generate (avx_widths_of true Double) 6 (fun k => of_int 8 (i + k)) in
  option_map (fun t => map sval (to_list t)) (array_cast (avx_widths_of true Double) (avx_widths_of true Int) (avx_build true true Double fadd) (avx_casts 0 (repeat 0%Z 16) true Double Int) (w0 8) (w0 4) (ToArray 14) [x 1%Z; x 7%Z])
  = Some [1; 2; 3; 4; 5; 6; 7; 8; 9; 10; 11; 12; 0; 0]%Z.
Proof.
  vm_compute. reflexivity.
Qed.

(** C58: simd_cast<ushort_v>(x) for x a SimdArray<float, 2> with the entries 40000 and 1 is undefined in SSE and AVX builds,
although unsigned short holds 40000: the parameters of _mm_setr_epi16 are signed.  Entry 0 of the result is whatever the
undefined conversion of 40000.f to short gives (undef). *)
Theorem C58_simd_cast_ushort_refuted :
  forall undef ssse3 sse41 avx2 c add, let x := Node (Leaf [of_int 4 40000]) (Leaf [of_int 4 1]) in
    wf (sse_native 4) 2 x /\ wf (avx_widths_of avx2 Float) 2 x /\
    option_map to_list (array_cast (sse_native 4) (sse_native 2) (sse_build ssse3 Float add) (sse_casts undef sse41 Float UShort) (w0 4) (w0 2) (ToVector 8) [x])
      = Some ([mkw 2 undef; mkw 2 1] ++ repeat (w0 2) 6) /\
    option_map to_list (array_cast (avx_widths_of avx2 Float) (avx_widths_of avx2 UShort) (avx_build avx2 c Float add) (avx_casts undef (repeat 0%Z 16) avx2 Float UShort) (w0 4) (w0 2) (ToVector 8) [x])
      = Some ([mkw 2 undef; mkw 2 1] ++ repeat (w0 2) 6) /\
    (undef mod 2 ^ 16 <> 40000 -> ~ cast_ok Float UShort (of_int 4 40000) (mkw 2 undef))%Z.
Proof. exact ArrayCastMain.C58_simd_cast_ushort_refuted_main. Qed.
Print Assumptions C58_simd_cast_ushort_refuted.

Example C58_simd_cast_ushort_refuted_ex :
  array_cast_entry Float UShort (of_int 4 40000) (mkw 2 0) /\ ~ cast_ok Float UShort (of_int 4 40000) (mkw 2 0).
Proof.
  split.
  - intros _ H. exfalso. revert H. replace (Z.quot (@fvalue (esize Float) (of_int 4 40000)) (fone (esize Float))) with 40000%Z by (vm_compute; reflexivity). lia.
  - intros H. specialize (H eq_refl). revert H. replace (Z.quot (@fvalue (esize Float) (of_int 4 40000)) (fone (esize Float))) with 40000%Z by (vm_compute; reflexivity). intros H.
    specialize (H ltac:(unfold in_range; cbn; lia)). vm_compute in H. discriminate H.
Qed.

(** C59: SimdArray<T, n>(x) and the implicit conversion of a SimdArray<U, n> x, for every n, in the SSE and in the AVX builds and
for all element types: it is defined and every entry is converted like static_cast.  (Double to uint needs SSE4.1.) *)
Theorem C59_converting_constructor :
  forall undef from to,
    (forall sse41 n x, ~ (sse41 = false /\ from = Double /\ to = UInt) -> wf (sse_native (esize from)) n x ->
      exists t, converted (sse_native (esize to)) (sse_casts undef sse41 from to) n x = Some t /\ wf (sse_native (esize to)) n t /\
                Forall2 (cast_ok from to) (to_list x) (to_list t)) /\
    (forall avx2 n x, wf (avx_widths_of avx2 from) n x ->
      exists t, converted (avx_widths_of avx2 to) (avx_casts undef (repeat 0%Z 16) avx2 from to) n x = Some t /\ wf (avx_widths_of avx2 to) n t /\
                Forall2 (cast_ok from to) (to_list x) (to_list t)).
Proof. exact ArrayCastMain.C59_converting_constructor_main. Qed.
Print Assumptions C59_converting_constructor.

Example C59_converting_constructor_ex :
  let x := generate (sse_native 2) 11 (fun k => mkw 2 (k - 4)) in
  wf (sse_native 2) 11 x /\
  option_map (fun t => map uval (to_list t)) (converted (sse_native 4) (sse_casts 0 false Short UInt) 11 x)
  = Some [4294967292; 4294967293; 4294967294; 4294967295; 0; 1; 2; 3; 4; 5; 6]%Z.
Proof.
  cbv zeta. split; [apply (ArrayCastMain.generated_wf Short); lia|]. vm_compute. reflexivity.
Qed.

(** C59: the conversion of a SimdArray<U, n> to a native vector type with n entries of type T: the same. *)
Theorem C59_to_vector :
  forall undef from to,
    (forall ssse3 sse41 add n x, ~ (sse41 = false /\ from = Double /\ to = UInt) -> sse_native (esize to) n = true -> wf (sse_native (esize from)) n x ->
      exists ys, to_native (sse_native (esize from)) (sse_native (esize to)) (sse_build ssse3 from add) (sse_casts undef sse41 from to) (w0 (esize from)) (w0 (esize to)) n x = Some (Leaf ys) /\
                Forall2 (cast_ok from to) (to_list x) ys) /\
    (forall avx2 c add n x, avx_widths_of avx2 to n = true -> wf (avx_widths_of avx2 from) n x ->
      exists ys, to_native (avx_widths_of avx2 from) (avx_widths_of avx2 to) (avx_build avx2 c from add) (avx_casts undef (repeat 0%Z 16) avx2 from to) (w0 (esize from)) (w0 (esize to)) n x = Some (Leaf ys) /\
                Forall2 (cast_ok from to) (to_list x) ys).
Proof. exact ArrayCastMain.C59_to_vector_main. Qed.
Print Assumptions C59_to_vector.

Example C59_to_vector_ex :
  let x := generate (sse_native 8) 8 (fun k => of_int 8 (100 * k - 250)) in
  wf (sse_native 8) 8 x /\
  option_map (fun t => map sval (to_list t)) (to_native (sse_native 8) (sse_native 2) (sse_build false Double fadd) (sse_casts 0 false Double Short) (w0 8) (w0 2) 8 x)
  = Some [-250; -150; -50; 50; 150; 250; 350; 450]%Z.
Proof.
  cbv zeta. split; [apply (ArrayCastMain.generated_wf Double); lia|]. vm_compute. reflexivity.
Qed.

(** C59: converting a SimdArray of integers to a SimdArray of an integer type of the same size or wider and back with the
converting constructors gives the same bits, for every number of entries, in every SSE build. *)
Theorem C59_integer_round_trip :
  forall undef sse41 from to n x, is_integer from = true -> is_integer to = true -> esize from <= esize to -> wf (sse_native (esize from)) n x ->
    exists t u, converted (sse_native (esize to)) (sse_casts undef sse41 from to) n x = Some t /\
                converted (sse_native (esize from)) (sse_casts undef sse41 to from) n t = Some u /\ to_list u = to_list x.
Proof. exact ArrayCastMain.C59_integer_round_trip_main. Qed.
Print Assumptions C59_integer_round_trip.

Example C59_integer_round_trip_ex :
  let x := generate (sse_native 2) 13 (fun k => mkw 2 (7000 * k)) in
  wf (sse_native 2) 13 x /\
  option_map (fun t => map sval (to_list t)) (converted (sse_native 4) (sse_casts 0 false UShort Int) 13 x)
  = Some [0; 7000; 14000; 21000; 28000; 35000; 42000; 49000; 56000; 63000; 4464; 11464; 18464]%Z.
Proof.
  cbv zeta. split; [apply (ArrayCastMain.generated_wf UShort); lia|]. vm_compute. reflexivity.
Qed.
