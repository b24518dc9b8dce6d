(** conversions between SSE vector types, integer division and converting deinterleave *)
From Coq Require Import ZArith List Bool Lia.
From Verif.Spec Require Import Seq FloatSpec MemSpec InterleaveSpec RoundSpec CastSpec.
From Verif.Model Require Import Word Fp FpArith SseReg SseMove SortNet SseInt SseBuild SseArith SseMask SimdArray Mem SseConvert.
Import ListNotations.
Local Open Scope Z_scope.
From Verif.Proof Require ConvertMain.

(** C33: simd_cast<To>(x0, x1, ...) between integer vectors, for every overload, every build (SSE2 or SSE4.1) and all
entries: entry i of the result is entry i of x0, x1, ... (counted through) converted like static_cast (the value of
the target type that is congruent modulo 2 ^ bits); entries for which there is no argument are zero. *)
Theorem C33_simd_cast :
  forall sse41 from to (xss : list (list (elt from))) r, is_integer from = true -> is_integer to = true ->
    Forall (fun xs => length xs = (16 / esize from)%nat) xss -> simd_cast sse41 from to (map pack xss) = Some r ->
    let n := Nat.min (length (concat xss)) (16 / esize to) in
    Forall2 (fun x y => (int_value to y - int_value from x) mod 2 ^ (8 * Z.of_nat (esize to)) = 0)
            (firstn n (concat xss)) (firstn n (lanes (esize to) r)) /\
    skipn n (lanes (esize to) r) = repeat (w0 (esize to)) (16 / esize to - n).
Proof. exact ConvertMain.C33_simd_cast_main. Qed.
Print Assumptions C33_simd_cast.

Example C33_simd_cast_ex :
  option_map (fun r => map sval (lanes 2 r)) (simd_cast false Int Short (map pack [map (mkw 4) [40000; -1; 3; 65536]; map (mkw 4) [5; 6; -70000; 8]]))
  = Some [-25536; -1; 3; 0; 5; 6; -4464; 8].
Proof.
  vm_compute. reflexivity.
Qed.

(** C33: the overloads exist: from one vector always, from more vectors whenever their entries fit into the result. *)
Theorem C33_simd_cast_defined :
  forall sse41 from to (xss : list (list (elt from))), (1 <= length xss)%nat ->
    (length xss = 1%nat \/ (length xss * (16 / esize from) <= 16 / esize to)%nat) ->
    (length xss <= 1 \/ esize from <> esize to)%nat ->
    exists r, simd_cast sse41 from to (map pack xss) = Some r.
Proof. exact ConvertMain.C33_simd_cast_defined_main. Qed.
Print Assumptions C33_simd_cast_defined.

Example C33_simd_cast_defined_ex :
  exists r, simd_cast false Double UShort (map pack (repeat (map (of_int 8) [7; 8]) 4)) = Some r.
Proof.
  eexists. reflexivity.
Qed.

(** C33: simd_cast<To, offset>(x): the entries offset * To::Size, offset * To::Size + 1, ... of x, converted. *)
Theorem C33_simd_cast_offset :
  forall sse41 from to offset (xs : list (elt from)) r, is_integer from = true -> is_integer to = true -> offset <> 0%nat ->
    length xs = (16 / esize from)%nat -> simd_cast_offset sse41 from to offset (pack xs) = Some r ->
    Forall2 (fun x y => (int_value to y - int_value from x) mod 2 ^ (8 * Z.of_nat (esize to)) = 0)
            (firstn (16 / esize to) (skipn (offset * (16 / esize to)) xs)) (lanes (esize to) r).
Proof. exact ConvertMain.C33_simd_cast_offset_main. Qed.
Print Assumptions C33_simd_cast_offset.

Example C33_simd_cast_offset_ex :
  option_map (fun r => map sval (lanes 4 r)) (simd_cast_offset false Short UInt 1 (pack (map (mkw 2) [1; 2; 3; 4; -5; 6; 7; 8]))) = Some [-5; 6; 7; 8] /\
  simd_cast_offset false Short UInt 2 (pack (map (mkw 2) [1; 2; 3; 4; -5; 6; 7; 8])) = None.
Proof.
  split; vm_compute; reflexivity.
Qed.

(** C33: the converting constructors of the SSE vectors (implicit, explicit and staticCast) convert entry i like
static_cast.  Missing: short vectors from int and unsigned int vectors, see C33_constructor_refuted. *)
Theorem C33_constructor_partial :
  forall sse41 from to (xs : list (elt from)), is_integer from = true -> is_integer to = true -> length xs = (16 / esize from)%nat ->
    ~ (to = Short /\ (from = Int \/ from = UInt)) ->
    let r := convert sse41 from to (pack xs) in
    let n := Nat.min (length xs) (16 / esize to) in
    Forall2 (fun x y => (int_value to y - int_value from x) mod 2 ^ (8 * Z.of_nat (esize to)) = 0)
            (firstn n xs) (firstn n (lanes (esize to) r)) /\
    skipn n (lanes (esize to) r) = repeat (w0 (esize to)) (16 / esize to - n).
Proof. exact ConvertMain.C33_constructor_partial_main. Qed.
Print Assumptions C33_constructor_partial.

Example C33_constructor_partial_ex :
  map uval (lanes 2 (convert false Int UShort (pack (map (mkw 4) [40000; -1; 3; 65537])))) = [40000; 65535; 3; 1; 0; 0; 0; 0].
Proof.
  vm_compute. reflexivity.
Qed.

(** C33: short_v(int_v) saturates: 40000 becomes 32767, while simd_cast<short_v> and static_cast give -25536. *)
Theorem C33_constructor_refuted :
  forall sse41, map sval (lanes 2 (convert sse41 Int Short (pack (repeat (mkw 4 40000) 4)))) = repeat 32767 4 ++ repeat 0 4 /\
    (32767 - 40000) mod 2 ^ 16 <> 0 /\
    option_map (fun r => map sval (lanes 2 r)) (simd_cast sse41 Int Short [pack (repeat (mkw 4 40000) 4)]) = Some (repeat (-25536) 4 ++ repeat 0 4).
Proof. exact ConvertMain.C33_constructor_refuted_main. Qed.
Print Assumptions C33_constructor_refuted.

Example C33_constructor_refuted_ex :
  (32767 - 40000) mod 2 ^ 16 = 58303.
Proof.
  reflexivity.
Qed.

(** C34: unsigned int vectors are converted to float with correct rounding (to nearest, ties to even), for every value. *)
Theorem C34_uint_to_float :
  forall sse41 (xs : list (elt UInt)), length xs = 4%nat ->
    Forall2 (fun x (y : word 4) => nearest_int y (uval x) /\ sign_bit y = false) xs (lanes 4 (convert sse41 UInt Float (pack xs))).
Proof. exact ConvertMain.C34_uint_to_float_main. Qed.
Print Assumptions C34_uint_to_float.

Example C34_uint_to_float_ex :
  map uval (lanes 4 (convert false UInt Float (pack (map (mkw 4) [2147483777; 4294967295; 16777217; 5])))) = [0x4F000001; 0x4F800000; 0x4B800000; 0x40A00000].
Proof.
  vm_compute. reflexivity.
Qed.

(** C34: and to double exactly. *)
Theorem C34_uint_to_double :
  forall sse41 (xs : list (elt UInt)), length xs = 4%nat ->
    Forall2 (fun x (y : word 8) => has_value y (uval x) /\ sign_bit y = false) (firstn 2 xs) (lanes 8 (convert sse41 UInt Double (pack xs))).
Proof. exact ConvertMain.C34_uint_to_double_main. Qed.
Print Assumptions C34_uint_to_double.

Example C34_uint_to_double_ex :
  map uval (lanes 8 (convert false UInt Double (pack (map (mkw 4) [4294967295; 3; 0; 0])))) = [0x41EFFFFFFFE00000; 0x4008000000000000].
Proof.
  vm_compute. reflexivity.
Qed.

(** C46: simd_cast between any two vector types (float, double and the integer types), every overload: entry i of the
result is entry i of the arguments converted like static_cast (cast_ok of Spec/CastSpec.v); entries without argument
are zero.  Missing: double to unsigned int without SSE4.1, see C46_double_uint_sse2_partial and _refuted. *)
Theorem C46_simd_cast_partial :
  forall sse41 from to (xss : list (list (elt from))) r, ~ (sse41 = false /\ from = Double /\ to = UInt) ->
    Forall (fun xs => length xs = (16 / esize from)%nat) xss -> simd_cast sse41 from to (map pack xss) = Some r ->
    let n := Nat.min (length (concat xss)) (16 / esize to) in
    Forall2 (cast_ok from to) (firstn n (concat xss)) (firstn n (lanes (esize to) r)) /\
    skipn n (lanes (esize to) r) = repeat (w0 (esize to)) (16 / esize to - n).
Proof. exact ConvertMain.C46_simd_cast_partial_main. Qed.
Print Assumptions C46_simd_cast_partial.

Example C46_simd_cast_partial_ex :
  option_map (fun r => map sval (lanes 2 r)) (simd_cast false Double Short (map pack [[mkw 8 0xC0091EB851EB851F; of_int 8 7]; map (of_int 8) [-32768; 32767]; map (of_int 8) [1; 2]]))
  = Some [-3; 7; -32768; 32767; 1; 2; 0; 0].
Proof.
  vm_compute. reflexivity.
Qed.

(** C46: simd_cast<To, offset>(x) with offset > 0 between any two vector types. *)
Theorem C46_simd_cast_offset :
  forall sse41 from to offset (xs : list (elt from)) r, offset <> 0%nat ->
    length xs = (16 / esize from)%nat -> simd_cast_offset sse41 from to offset (pack xs) = Some r ->
    Forall2 (cast_ok from to) (firstn (16 / esize to) (skipn (offset * (16 / esize to)) xs)) (lanes (esize to) r).
Proof. exact ConvertMain.C46_simd_cast_offset_main. Qed.
Print Assumptions C46_simd_cast_offset.

Example C46_simd_cast_offset_ex :
  option_map (fun r => map uval (lanes 8 r)) (simd_cast_offset false Short Double 3 (pack (map (mkw 2) [1; 2; 3; 4; -5; 6; 7; -1]))) = Some [0x401C000000000000; 0xBFF0000000000000].
Proof.
  vm_compute. reflexivity.
Qed.

(** C46: the converting constructors from and to float and double vectors. *)
Theorem C46_constructor :
  forall sse41 from to (xs : list (elt from)), is_integer from && is_integer to = false -> length xs = (16 / esize from)%nat ->
    ~ (sse41 = false /\ from = Double /\ to = UInt) ->
    let r := convert sse41 from to (pack xs) in
    let n := Nat.min (length xs) (16 / esize to) in
    Forall2 (cast_ok from to) (firstn n xs) (firstn n (lanes (esize to) r)) /\
    skipn n (lanes (esize to) r) = repeat (w0 (esize to)) (16 / esize to - n).
Proof. exact ConvertMain.C46_constructor_main. Qed.
Print Assumptions C46_constructor.

Example C46_constructor_ex :
  map sval (lanes 4 (convert false Float Int (pack (map (mkw 4) [0xC0490FDB; 0x4B800000; 0xBF7FFFFF; 0x4EFFFFFF])))) = [-3; 16777216; 0; 2147483520].
Proof.
  vm_compute. reflexivity.
Qed.

(** C46: double to unsigned int without SSE4.1 is correct if both entries are on the same side of 2 ^ 31.  Missing: the
other pairs, see C46_double_uint_sse2_refuted. *)
Theorem C46_double_uint_sse2_partial :
  forall (x0 x1 : elt Double), (2 ^ 31 * fone 8 <=? fvalue x0) = (2 ^ 31 * fone 8 <=? fvalue x1) -> is_NaN x0 = false -> is_NaN x1 = false ->
    exists y0 y1, lanes 4 (convert false Double UInt (pack [x0; x1])) = [y0; y1; w0 4; w0 4] /\ cast_ok Double UInt x0 y0 /\ cast_ok Double UInt x1 y1.
Proof. exact ConvertMain.C46_double_uint_sse2_partial_main. Qed.
Print Assumptions C46_double_uint_sse2_partial.

Example C46_double_uint_sse2_partial_ex :
  map uval (lanes 4 (convert false Double UInt (pack (map (of_int 8) [3000000000; 4294967295])))) = [3000000000; 4294967295; 0; 0].
Proof.
  vm_compute. reflexivity.
Qed.

(** C46: without SSE4.1 the second entry is converted the way the first one needs it: (1, 3000000000) becomes
(1, 0x80000000), and (3000000000, 0.5) becomes (3000000000, 1). *)
Theorem C46_double_uint_sse2_refuted :
  map uval (lanes 4 (convert false Double UInt (pack (map (of_int 8) [1; 3000000000])))) = [1; 2147483648; 0; 0] /\
  map uval (lanes 4 (convert false Double UInt (pack [of_int 8 3000000000; mkw 8 0x3FE0000000000000]))) = [3000000000; 1; 0; 0].
Proof. exact ConvertMain.C46_double_uint_sse2_refuted_main. Qed.
Print Assumptions C46_double_uint_sse2_refuted.

Example C46_double_uint_sse2_refuted_ex :
  map uval (lanes 4 (convert true Double UInt (pack (map (of_int 8) [1; 3000000000])))) = [1; 3000000000; 0; 0] /\
  map uval (lanes 4 (convert false Double UInt (pack (map (of_int 8) [3000000000; 1])))) = [3000000000; 1; 0; 0].
Proof.
  split; vm_compute; reflexivity.
Qed.

(** C23: a / b of short, unsigned short, int and unsigned int vectors: whenever no divisor is zero and every quotient is
representable, entry i is the truncated quotient of the entries i (16-bit types: computed in float). *)
Theorem C23_division :
  forall sse41 e (xs ys : list (elt e)), is_integer e = true -> length xs = (16 / esize e)%nat -> length ys = (16 / esize e)%nat ->
    Forall2 (fun x y => int_value e y <> 0 /\ in_range e (Z.quot (int_value e x) (int_value e y))) xs ys ->
    exists r, v_idiv sse41 e (pack xs) (pack ys) = Some r /\
      map (int_value e) (lanes (esize e) r) = map2 (fun x y => Z.quot (int_value e x) (int_value e y)) xs ys.
Proof. exact ConvertMain.C23_division_main. Qed.
Print Assumptions C23_division.

Example C23_division_ex :
  option_map (fun r => map sval (lanes 2 r)) (v_idiv false Short (pack (map (mkw 2) [32767; -32768; 7; -7; 7; 1; 0; -32768])) (pack (map (mkw 2) [2; 1; 2; 2; -2; 2; 5; -2])))
  = Some [16383; -32768; 3; -3; -3; 0; 0; 16384].
Proof.
  vm_compute. reflexivity.
Qed.

(** C23: a % b under the same conditions: the remainder of the truncating division (with the sign of the dividend). *)
Theorem C23_remainder :
  forall sse41 e (xs ys : list (elt e)), is_integer e = true -> length xs = (16 / esize e)%nat -> length ys = (16 / esize e)%nat ->
    Forall2 (fun x y => int_value e y <> 0 /\ in_range e (Z.quot (int_value e x) (int_value e y))) xs ys ->
    exists r, v_imod sse41 e (pack xs) (pack ys) = Some r /\
      map (int_value e) (lanes (esize e) r) = map2 (fun x y => Z.rem (int_value e x) (int_value e y)) xs ys.
Proof. exact ConvertMain.C23_remainder_main. Qed.
Print Assumptions C23_remainder.

Example C23_remainder_ex :
  option_map (fun r => map uval (lanes 2 r)) (v_imod true UShort (pack (map (mkw 2) [65535; 65534; 7; 8; 9; 1; 0; 40000])) (pack (map (mkw 2) [2; 65535; 2; 2; 10; 2; 5; 30000])))
  = Some [1; 65534; 1; 0; 9; 1; 0; 10000].
Proof.
  vm_compute. reflexivity.
Qed.

(** C23: -32768 / -1 of short is not undefined in C++ (it is evaluated in int and converted back: -32768), and
-32768 % -1 is 0.  The vector operators saturate: 32767 and remainder -1. *)
Theorem C23_short_min_refuted :
  forall sse41, let a := pack (repeat (mkw 2 (-32768)) 8) in let b := pack (repeat (mkw 2 (-1)) 8) in
    option_map (fun r => map sval (lanes 2 r)) (v_idiv sse41 Short a b) = Some (repeat 32767 8) /\
    option_map (fun r => map sval (lanes 2 r)) (v_imod sse41 Short a b) = Some (repeat (-1) 8) /\
    Z.rem (-32768) (-1) = 0.
Proof. exact ConvertMain.C23_short_min_refuted_main. Qed.
Print Assumptions C23_short_min_refuted.

Example C23_short_min_refuted_ex :
  option_map (fun r => map sval (lanes 2 r)) (v_imod false Short (pack (repeat (mkw 2 (-32767)) 8)) (pack (repeat (mkw 2 (-1)) 8))) = Some (repeat 0 8).
Proof.
  vm_compute. reflexivity.
Qed.

(** C45: float vectors from shorts and from unsigned shorts: entry i of a has the value of mem\[2 i\], entry i of b the
value of mem\[2 i + 1\]. *)
Theorem C45_deinterleave_float :
  forall (m : memory (word 2)) mem xs, length xs = 8%nat -> holds m mem xs ->
    (exists a b, deinterleave_mem_short_float m mem = Some (a, b) /\
       Forall2 has_value (lanes 4 a) (tab 4 (fun i => sval (znth (w0 2) xs (2 * i)))) /\
       Forall2 has_value (lanes 4 b) (tab 4 (fun i => sval (znth (w0 2) xs (2 * i + 1))))) /\
    (exists a b, deinterleave_mem_ushort_float m mem = Some (a, b) /\
       Forall2 has_value (lanes 4 a) (tab 4 (fun i => uval (znth (w0 2) xs (2 * i)))) /\
       Forall2 has_value (lanes 4 b) (tab 4 (fun i => uval (znth (w0 2) xs (2 * i + 1))))).
Proof. exact ConvertMain.C45_deinterleave_float_main. Qed.
Print Assumptions C45_deinterleave_float.

Example C45_deinterleave_float_ex :
  option_map (fun p => (map uval (lanes 4 (fst p)), map uval (lanes 4 (snd p)))) (deinterleave_mem_ushort_float (mem_of_list 3 (tab 8 (fun i => mkw 2 (i + 1)))) 3)
  = Some ([0x3F800000; 0x40400000; 0x40A00000; 0x40E00000], [0x40000000; 0x40800000; 0x40C00000; 0x41000000]).
Proof.
  vm_compute. reflexivity.
Qed.
