(** conversions of the AVX vectors and masks, and their integer division *)
From Coq Require Import ZArith List Bool Lia.
From Verif.Spec Require Import Seq FloatSpec RoundSpec CastSpec VectorSpec.
From Verif.Model Require Import Word Fp FpArith SseReg SseMove SortNet SseInt SseBuild SseArith SseMask SseConvert SimdArray AvxReg AvxMove AvxBuild AvxShuffle AvxMask AvxArith AvxConvert.
Import ListNotations.
Local Open Scope Z_scope.
From Verif.Proof Require AvxConvertMain.

(** C46 (also C33, C34): simd_cast<To>(x0, x1, ...) from AVX vectors to an AVX vector, for every overload, with and
without AVX2, and for all entries including NaN and infinities: entry i of the result is entry i of x0, x1, ...
(counted through) converted like static_cast.  The entries for which there is no argument are zero if the cast of a
128-bit to a 256-bit register clears the upper half (undef; see C46_avx_simd_cast_undefined_refuted). *)
Theorem C46_avx_simd_cast :
  forall undef avx2 from to (xss : list (list (elt from))) r,
    Forall (fun xs => length xs = (32 / esize from)%nat) xss -> ycast undef avx2 from to (map ypack xss) = Some r ->
    let n := Nat.min (length (concat xss)) (32 / esize to) in
    Forall2 (cast_ok from to) (firstn n (concat xss)) (firstn n (ylanes (esize to) r)) /\
    (undef = repeat 0 16 -> skipn n (ylanes (esize to) r) = repeat (w0 (esize to)) (32 / esize to - n)).
Proof. exact AvxConvertMain.C46_avx_simd_cast_main. Qed.
Print Assumptions C46_avx_simd_cast.

Example C46_avx_simd_cast_ex :
  option_map (fun r => map sval (ylanes 2 r)) (ycast (repeat 0 16) true Double Short (map (fun l => ypack (map (of_int 8) l)) [[1; -2; 3; 4]; [5; 6; 7; -32768]; [9; 10; 11; 12]]))
  = Some [1; -2; 3; 4; 5; 6; 7; -32768; 9; 10; 11; 12; 0; 0; 0; 0].
Proof.
  vm_compute. reflexivity.
Qed.

(** C33, C46: the overloads exist: from one vector always, from more vectors whenever their entries fit into the result,
if both element types have AVX vectors in the build (float and double; the integer types with AVX2). *)
Theorem C46_avx_simd_cast_defined :
  forall undef avx2 from to (xss : list (list (elt from))), (1 <= length xss)%nat ->
    (avx2 = true \/ is_integer from = false /\ is_integer to = false) ->
    (length xss = 1 \/ esize from <> esize to /\ length xss * (32 / esize from) <= 32 / esize to)%nat ->
    exists r, ycast undef avx2 from to (map ypack xss) = Some r.
Proof. exact AvxConvertMain.C46_avx_simd_cast_defined_main. Qed.
Print Assumptions C46_avx_simd_cast_defined.

Example C46_avx_simd_cast_defined_ex :
  exists r, ycast (repeat 0 16) false Double Float (map ypack (repeat (map (of_int 8) [7; 8; 9; 10]) 2)) = Some r.
Proof.
  eexists. reflexivity.
Qed.

(** Finding: simd_cast from a vector with fewer bytes of entries than the result leaves the upper entries undefined where
the code zero-extends with _mm256_castsi128_si256 and friends (GCC; the comment in the code says zero): whatever the
register contained.  Here double to float; the same holds for all overloads that return half a register. *)
Theorem C46_avx_simd_cast_undefined_refuted :
  forall undef avx2 (xs : list (word 8)), length xs = 4%nat -> length undef = 16%nat ->
    exists r, ycast undef avx2 Double Float [ypack xs] = Some r /\ hi128 r = undef.
Proof. exact AvxConvertMain.C46_avx_simd_cast_undefined_refuted_main. Qed.
Print Assumptions C46_avx_simd_cast_undefined_refuted.

Example C46_avx_simd_cast_undefined_refuted_ex :
  option_map (fun r => map uval (ylanes 4 r)) (ycast (repeat 255 16) false Double Float [ypack (map (of_int 8) [0; 0; 0; 0])])
  = Some [0; 0; 0; 0; 0xffffffff; 0xffffffff; 0xffffffff; 0xffffffff].
Proof.
  vm_compute. reflexivity.
Qed.

(** C46 (also C33, C34): simd_cast in AVX builds where SSE vectors are involved, for every overload: from up to eight SSE
vectors to an AVX vector, from AVX vectors to an SSE vector, and between SSE vectors (which use AVX instructions). *)
Theorem C46_avx_sse_simd_cast :
  (forall undef avx2 from to (xss : list (list (elt from))) r, length undef = 16%nat -> Forall (fun b => 0 <= b < 256) undef ->
    Forall (fun xs => length xs = (16 / esize from)%nat) xss -> xycast undef avx2 from to (map pack xss) = Some r ->
    let n := Nat.min (length (concat xss)) (32 / esize to) in
    Forall2 (cast_ok from to) (firstn n (concat xss)) (firstn n (ylanes (esize to) r)) /\
    (undef = repeat 0 16 -> skipn n (ylanes (esize to) r) = repeat (w0 (esize to)) (32 / esize to - n))) /\
  (forall undef avx2 from to (xss : list (list (elt from))) r,
    Forall (fun xs => length xs = (32 / esize from)%nat) xss -> yxcast undef avx2 from to (map ypack xss) = Some r ->
    let n := Nat.min (length (concat xss)) (16 / esize to) in
    Forall2 (cast_ok from to) (firstn n (concat xss)) (firstn n (lanes (esize to) r)) /\
    skipn n (lanes (esize to) r) = repeat (w0 (esize to)) (16 / esize to - n)) /\
  (forall from to (xss : list (list (elt from))) r,
    Forall (fun xs => length xs = (16 / esize from)%nat) xss -> xcast from to (map pack xss) = Some r ->
    let n := Nat.min (length (concat xss)) (16 / esize to) in
    Forall2 (cast_ok from to) (firstn n (concat xss)) (firstn n (lanes (esize to) r)) /\
    skipn n (lanes (esize to) r) = repeat (w0 (esize to)) (16 / esize to - n)).
Proof. exact AvxConvertMain.C46_avx_sse_simd_cast_main. Qed.
Print Assumptions C46_avx_sse_simd_cast.

Example C46_avx_sse_simd_cast_ex :
  option_map (fun r => map sval (ylanes 2 r)) (xycast (repeat 0 16) true Double Short (map (fun l => pack (map (of_int 8) l)) [[1; -2]; [3; 4]; [5; 6]; [7; -32768]; [9; 10]]))
  = Some [1; -2; 3; 4; 5; 6; 7; -32768; 9; 10; 0; 0; 0; 0; 0; 0] /\
  option_map (fun r => map sval (lanes 2 r)) (yxcast (repeat 0 16) true Double Short (map (fun l => ypack (map (of_int 8) l)) [[1; -2; 3; 4]; [5; 6; 7; -32768]]))
  = Some [1; -2; 3; 4; 5; 6; 7; -32768].
Proof.
  split; vm_compute; reflexivity.
Qed.

(** C33, C46: which overloads between AVX and SSE vectors exist: from one vector always, from more vectors whenever their
entries fit into the result. *)
Theorem C46_avx_sse_simd_cast_defined :
  (forall undef avx2 from to (xss : list (list (elt from))), (1 <= length xss)%nat -> avx2 = true \/ is_integer to = false ->
    (length xss = 1 \/ length xss * (16 / esize from) <= 32 / esize to)%nat ->
    exists r, xycast undef avx2 from to (map pack xss) = Some r) /\
  (forall undef avx2 from to (xss : list (list (elt from))), (1 <= length xss)%nat -> avx2 = true \/ is_integer from = false ->
    (length xss = 1 \/ length xss * (32 / esize from) <= 16 / esize to)%nat ->
    exists r, yxcast undef avx2 from to (map ypack xss) = Some r) /\
  (forall from to (xss : list (list (elt from))), (1 <= length xss)%nat ->
    (length xss = 1 \/ esize from <> esize to /\ length xss * (16 / esize from) <= 16 / esize to)%nat ->
    exists r, xcast from to (map pack xss) = Some r).
Proof. exact AvxConvertMain.C46_avx_sse_simd_cast_defined_main. Qed.
Print Assumptions C46_avx_sse_simd_cast_defined.

Example C46_avx_sse_simd_cast_defined_ex :
  exists r, xycast (repeat 0 16) true Double UShort (map pack (repeat (map (of_int 8) [7; 8]) 8)) = Some r.
Proof.
  eexists. reflexivity.
Qed.

(** C46 (also C33): simd_cast<To, offset>(x) with an offset other than zero, from AVX to AVX, from AVX to SSE and from SSE
to AVX: the entries offset * To::Size, offset * To::Size + 1, ... of x, converted; nothing undefined. *)
Theorem C46_avx_simd_cast_offset :
  (forall undef avx2 from to offset (xs : list (elt from)) r, length xs = (32 / esize from)%nat ->
    ycast_offset undef avx2 from to offset (ypack xs) = Some r ->
    Forall2 (cast_ok from to) (firstn (32 / esize to) (skipn (offset * (32 / esize to)) xs)) (ylanes (esize to) r)) /\
  (forall avx2 from to offset (xs : list (elt from)) r, length xs = (32 / esize from)%nat ->
    yxcast_offset avx2 from to offset (ypack xs) = Some r ->
    Forall2 (cast_ok from to) (firstn (16 / esize to) (skipn (offset * (16 / esize to)) xs)) (lanes (esize to) r)) /\
  (forall undef avx2 from to offset (xs : list (elt from)) r, length xs = (16 / esize from)%nat ->
    xycast_offset undef avx2 from to offset (pack xs) = Some r ->
    Forall2 (cast_ok from to) (firstn (32 / esize to) (skipn (offset * (32 / esize to)) xs)) (ylanes (esize to) r)).
Proof. exact AvxConvertMain.C46_avx_simd_cast_offset_main. Qed.
Print Assumptions C46_avx_simd_cast_offset.

Example C46_avx_simd_cast_offset_ex :
  option_map (fun r => map sval (ylanes 4 r)) (ycast_offset (repeat 170 16) true Short Int 1 (ypack (map (mkw 2) (map Z.of_nat (seq 0 16))))) = Some [8; 9; 10; 11; 12; 13; 14; 15] /\
  option_map (fun r => map sval (lanes 4 r)) (yxcast_offset true Short Int 3 (ypack (map (mkw 2) (map Z.of_nat (seq 0 16))))) = Some [12; 13; 14; 15].
Proof.
  split; vm_compute; reflexivity.
Qed.

(** C46 (also C33, C34): the converting constructors of the AVX vectors (implicit and explicit, simd_cast and staticCast)
convert entry i like static_cast. *)
Theorem C46_avx_constructor :
  forall undef avx2 from to (xs : list (elt from)), length xs = (32 / esize from)%nat ->
    let r := avx_construct undef avx2 from to (ypack xs) in
    let n := Nat.min (length xs) (32 / esize to) in
    Forall2 (cast_ok from to) (firstn n xs) (firstn n (ylanes (esize to) r)) /\
    (undef = repeat 0 16 -> skipn n (ylanes (esize to) r) = repeat (w0 (esize to)) (32 / esize to - n)).
Proof. exact AvxConvertMain.C46_avx_constructor_main. Qed.
Print Assumptions C46_avx_constructor.

Example C46_avx_constructor_ex :
  map sval (firstn 8 (ylanes 2 (avx_construct (repeat 0 16) true Int Short (ypack (map (mkw 4) [40000; -1; 3; 65536; 5; 6; -70000; 8])))))
  = [-25536; -1; 3; 0; 5; 6; -4464; 8].
Proof.
  vm_compute. reflexivity.
Qed.

(** C33: the conversions between integer vectors in AVX builds, spelled out: entry i of simd_cast<To>(x0, ...) and of
To(x) is congruent to entry i of the source modulo 2 ^ bits of the target type (no saturation: unlike in SSE builds
also for the short constructor from int). *)
Theorem C33_avx_integers :
  (forall undef avx2 from to (xss : list (list (elt from))) r, is_integer from = true -> is_integer to = true ->
    Forall (fun xs => length xs = (32 / esize from)%nat) xss -> ycast undef avx2 from to (map ypack xss) = Some r ->
    let n := Nat.min (length (concat xss)) (32 / esize to) in
    Forall2 (fun x y => (int_value to y - int_value from x) mod 2 ^ (8 * Z.of_nat (esize to)) = 0)
            (firstn n (concat xss)) (firstn n (ylanes (esize to) r))) /\
  (forall undef avx2 from to (xs : list (elt from)), is_integer from = true -> is_integer to = true -> length xs = (32 / esize from)%nat ->
    let n := Nat.min (length xs) (32 / esize to) in
    Forall2 (fun x y => (int_value to y - int_value from x) mod 2 ^ (8 * Z.of_nat (esize to)) = 0)
            (firstn n xs) (firstn n (ylanes (esize to) (avx_construct undef avx2 from to (ypack xs))))).
Proof. exact AvxConvertMain.C33_avx_integers_main. Qed.
Print Assumptions C33_avx_integers.

Example C33_avx_integers_ex :
  map sval (firstn 4 (ylanes 2 (avx_construct (repeat 0 16) true Int Short (ypack (map (mkw 4) [32768; -32769; 65535; 1; 0; 0; 0; 0])))))
  = [-32768; 32767; -1; 1].
Proof.
  vm_compute. reflexivity.
Qed.

(** C34: unsigned int to float and double in AVX builds: the value nearest to the unsigned number (for double it is exact),
for all 2 ^ 32 numbers, from AVX vectors (entries of the low half for double) and from SSE vectors. *)
Theorem C34_avx_uint_to_fp :
  (forall undef avx2 to (xs : list (word 4)), is_integer to = false -> length xs = 8%nat ->
    let n := (32 / esize to)%nat in
    Forall2 (fun x y => nearest_int y (uval x)) (firstn n xs) (ylanes (esize to) (avx_construct undef avx2 UInt to (ypack xs)))) /\
  (forall undef avx2 (xs : list (word 4)) r, length undef = 16%nat -> Forall (fun b => 0 <= b < 256) undef -> length xs = 4%nat ->
    xycast undef avx2 UInt Double [pack xs] = Some r -> Forall2 (fun x y => nearest_int y (uval x)) xs (ylanes 8 r)).
Proof. exact AvxConvertMain.C34_avx_uint_to_fp_main. Qed.
Print Assumptions C34_avx_uint_to_fp.

Example C34_avx_uint_to_fp_ex :
  map uval (ylanes 4 (avx_construct (repeat 0 16) true UInt Float (ypack (map (mkw 4) [0xffffffff; 0x80000080; 0x80000081; 0x80000180; 0; 1; 2; 3]))))
  = [0x4f800000; 0x4f000000; 0x4f000001; 0x4f000002; 0; 0x3f800000; 0x40000000; 0x40400000].
Proof.
  vm_compute. reflexivity.
Qed.

(** C19: simd_cast of masks in AVX builds, for every overload: from AVX masks to an AVX mask, from SSE masks to an AVX
mask, from AVX masks to an SSE mask and between SSE masks: entry i of the result is entry i of the arguments (counted
through).  The entries for which there is no argument are false; of an AVX mask only if the cast of a 128-bit to a
256-bit register clears the upper half (undef; C19_avx_mask_cast_undefined_refuted). *)
Theorem C19_avx_mask_simd_cast :
  (forall undef avx2 from to (kss : list (list bool)) r, Forall (fun ks => length ks = (32 / esize from)%nat) kss ->
    ymasks_cast undef avx2 from to (map (ymask_reg (esize from)) kss) = Some r ->
    let n := Nat.min (length (concat kss)) (32 / esize to) in
    firstn n (ylanes (esize to) r) = map (wmask (esize to)) (firstn n (concat kss)) /\
    (undef = repeat 0 16 -> r = ymask_reg (esize to) (cast_spec (32 / esize to) (concat kss)))) /\
  (forall undef avx2 from to (kss : list (list bool)) r, length undef = 16%nat -> Forall (fun ks => length ks = (16 / esize from)%nat) kss ->
    xymasks_cast undef avx2 from to (map (mask_reg (esize from)) kss) = Some r ->
    let n := Nat.min (length (concat kss)) (32 / esize to) in
    firstn n (ylanes (esize to) r) = map (wmask (esize to)) (firstn n (concat kss)) /\
    (undef = repeat 0 16 -> r = ymask_reg (esize to) (cast_spec (32 / esize to) (concat kss)))) /\
  (forall avx2 from to (kss : list (list bool)) r, Forall (fun ks => length ks = (32 / esize from)%nat) kss ->
    yxmasks_cast avx2 from to (map (ymask_reg (esize from)) kss) = Some r -> r = mask_reg (esize to) (cast_spec (16 / esize to) (concat kss))) /\
  (forall from to (kss : list (list bool)) r, Forall (fun ks => length ks = (16 / esize from)%nat) kss ->
    xmask_cast (16 / esize from) (16 / esize to) (map (mask_reg (esize from)) kss) = Some r -> r = mask_reg (esize to) (cast_spec (16 / esize to) (concat kss))).
Proof. exact AvxConvertMain.C19_avx_mask_simd_cast_main. Qed.
Print Assumptions C19_avx_mask_simd_cast.

Example C19_avx_mask_simd_cast_ex :
  option_map (ym_to_int 2) (ymasks_cast (repeat 0 16) true Double Short (map (ymask_reg 8) [[true; false; false; true]; [true; true; false; false]])) = Some 57 /\
  option_map (ym_to_int 4) (xymasks_cast (repeat 170 16) true Double Float (map (mask_reg 8) [[true; false]; [false; true]; [true; true]; [false; false]])) = Some 57 /\
  option_map (m_to_int 2) (yxmasks_cast true Double Short (map (ymask_reg 8) [[true; false; false; true]; [true; true; false; false]])) = Some 57.
Proof.
  repeat split; vm_compute; reflexivity.
Qed.

(** C19: the overloads exist from one mask always, and from two and four masks whenever their entries fit into the result
(the AVX mask types that exist in the build). *)
Theorem C19_avx_mask_simd_cast_defined :
  (forall undef avx2 from to (kss : list (list bool)), (avx2 = true \/ is_integer from = false /\ is_integer to = false) ->
    (length kss = 1 \/ esize from <> esize to /\ (length kss = 2 \/ length kss = 4) /\ length kss * (32 / esize from) <= 32 / esize to)%nat ->
    exists r, ymasks_cast undef avx2 from to (map (ymask_reg (esize from)) kss) = Some r) /\
  (forall undef avx2 from to (kss : list (list bool)), avx2 = true \/ is_integer to = false ->
    (length kss = 1 \/ (length kss = 2 \/ length kss = 4) /\ length kss * (16 / esize from) <= 32 / esize to)%nat ->
    exists r, xymasks_cast undef avx2 from to (map (mask_reg (esize from)) kss) = Some r) /\
  (forall avx2 from to (kss : list (list bool)), avx2 = true \/ is_integer from = false ->
    (length kss = 1 \/ length kss = 2 /\ length kss * (32 / esize from) <= 16 / esize to)%nat ->
    exists r, yxmasks_cast avx2 from to (map (ymask_reg (esize from)) kss) = Some r).
Proof. exact AvxConvertMain.C19_avx_mask_simd_cast_defined_main. Qed.
Print Assumptions C19_avx_mask_simd_cast_defined.

Example C19_avx_mask_simd_cast_defined_ex :
  exists r, ymasks_cast (repeat 0 16) true Double Short (map (ymask_reg 8) (repeat [true; false; true; true] 4)) = Some r.
Proof.
  eexists. reflexivity.
Qed.

(** C19: simd_cast<To, offset>(k) of masks with an offset other than zero: the entries offset * To::Size, ... of k. *)
Theorem C19_avx_mask_simd_cast_offset :
  (forall from to offset ks r, length ks = (16 / esize from)%nat -> xmask_cast_offset from to offset (mask_reg (esize from) ks) = Some r ->
    r = mask_reg (esize to) (firstn (16 / esize to) (skipn (offset * (16 / esize to)) ks))) /\
  (forall avx2 from to offset ks r, length ks = (32 / esize from)%nat -> ymask_cast_offset avx2 from to offset (ymask_reg (esize from) ks) = Some r ->
    r = ymask_reg (esize to) (firstn (32 / esize to) (skipn (offset * (32 / esize to)) ks))) /\
  (forall from to offset ks r, length ks = (16 / esize from)%nat -> xymask_cast_offset from to offset (mask_reg (esize from) ks) = Some r ->
    r = ymask_reg (esize to) (firstn (32 / esize to) (skipn (offset * (32 / esize to)) ks))) /\
  (forall avx2 from to offset ks r, length ks = (32 / esize from)%nat -> yxmask_cast_offset avx2 from to offset (ymask_reg (esize from) ks) = Some r ->
    r = mask_reg (esize to) (firstn (16 / esize to) (skipn (offset * (16 / esize to)) ks))).
Proof. exact AvxConvertMain.C19_avx_mask_simd_cast_offset_main. Qed.
Print Assumptions C19_avx_mask_simd_cast_offset.

Example C19_avx_mask_simd_cast_offset_ex :
  option_map (m_to_int 4) (yxmask_cast_offset true Short Float 3 (ymask_reg 2 (repeat false 12 ++ [true; false; true; true]))) = Some 13 /\
  option_map (ym_to_int 8) (ymask_cast_offset true Short Double 2 (ymask_reg 2 (repeat false 8 ++ [true; false; true; true] ++ repeat false 4))) = Some 13.
Proof.
  split; vm_compute; reflexivity.
Qed.

(** C23: a / b of the AVX integer vectors (evaluated in double for the 32-bit types and in float for the 16-bit types):
whenever no divisor is zero, entry i is the truncated quotient of the entries i, converted to the element type.  This
includes -32768 / -1 of short, which SSE builds get wrong, and gives INT_MIN for INT_MIN / -1 (undefined in C++). *)
Theorem C23_avx_division :
  forall avx2 gcc e (xs ys : list (elt e)), is_integer e = true -> length xs = (32 / esize e)%nat -> length ys = (32 / esize e)%nat ->
    Forall (fun y => int_value e y <> 0) ys ->
    y_idiv avx2 gcc e (ypack xs) (ypack ys) = ypack (map2 (fun x y => mkw (esize e) (Z.quot (int_value e x) (int_value e y))) xs ys).
Proof. exact AvxConvertMain.C23_avx_division_main. Qed.
Print Assumptions C23_avx_division.

Example C23_avx_division_ex :
  map sval (ylanes 2 (y_idiv true true Short (ypack (map (mkw 2) [32767; -32768; 7; -7; 7; 1; 0; -32768; 9; 9; 9; 9; 9; 9; 9; 9])) (ypack (map (mkw 2) [2; -1; 2; 2; -2; 2; 5; -2; 1; 2; 3; 4; 5; 6; 7; 8]))))
  = [16383; -32768; 3; -3; -3; 0; 0; 16384; 9; 4; 3; 2; 1; 1; 1; 1].
Proof.
  vm_compute. reflexivity.
Qed.

(** C23: a % b of the AVX integer vectors whenever no divisor is zero: the remainder of the truncating division (with the
sign of the dividend). *)
Theorem C23_avx_remainder :
  forall avx2 gcc e (xs ys : list (elt e)), is_integer e = true -> length xs = (32 / esize e)%nat -> length ys = (32 / esize e)%nat ->
    Forall (fun y => int_value e y <> 0) ys ->
    map (int_value e) (ylanes (esize e) (y_imod avx2 gcc e (ypack xs) (ypack ys))) = map2 (fun x y => Z.rem (int_value e x) (int_value e y)) xs ys.
Proof. exact AvxConvertMain.C23_avx_remainder_main. Qed.
Print Assumptions C23_avx_remainder.

Example C23_avx_remainder_ex :
  map uval (ylanes 4 (y_imod true true UInt (ypack (map (mkw 4) [0xffffffff; 0xfffffffe; 7; 8; 9; 1; 0; 0x80000000])) (ypack (map (mkw 4) [2; 0xffffffff; 2; 2; 10; 2; 5; 3]))))
  = [1; 0xfffffffe; 1; 0; 9; 1; 0; 2].
Proof.
  vm_compute. reflexivity.
Qed.
