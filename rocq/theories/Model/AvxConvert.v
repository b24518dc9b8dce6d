(** Conversions in AVX builds (avx/casts.h, avx/simd_cast.h, the AVX variants of sse/simd_cast.h) and
    integer division of AVX vectors (avx/detail.h, avx/vector.tcc).  AVX builds have SSE4.1.  [undef]
    is the upper half that the casts from 128 to 256 bits leave undefined (AvxMove.v); concat
    (avx/casts.h:112-122) overwrites it. *)
From Coq Require Import ZArith List Bool.
From Verif.Spec Require Import Seq.
From Verif.Model Require Import Word Fp FpArith SseReg SseMove SortNet SseInt SseBuild SseArith SseMask SimdArray Mem SseConvert
  AvxReg AvxMove AvxBuild AvxShuffle AvxMask AvxArith.
Import ListNotations.
Local Open Scope Z_scope.

(** * instructions *)

(** _mm256_cvttpd_epi32, _mm256_cvtpd_ps: four doubles to a 128-bit register *)
Definition ycvttpd_epi32 (a : yreg) : reg := pack (map (cvt_int32 ToZero) (ylanes 8 a)).
Definition ycvtpd_ps (a : yreg) : reg := pack (map to_float (ylanes 8 a)).
(** _mm256_cvtps_pd, _mm256_cvtepi32_pd: from a 128-bit register *)
Definition ycvtps_pd (a : reg) : yreg := ypack (map to_double (lanes 4 a)).
Definition ycvtepi32_pd (a : reg) : yreg := ypack (map (fun x => of_int 8 (sval x)) (lanes 4 a)).
(** _mm256_cvtepi16_epi32, _mm256_cvtepu16_epi32 *)
Definition ycvtepi16_epi32 (a : reg) : yreg := ypack (map (fun x => mkw 4 (sval x)) (lanes 2 a)).
Definition ycvtepu16_epi32 (a : reg) : yreg := ypack (map (fun x => mkw 4 (uval x)) (lanes 2 a)).
(** _mm256_cvttps_epi32, _mm256_cvtepi32_ps *)
Definition ycvttps_epi32 : yreg -> yreg := ymap1 cvttps_epi32.
Definition ycvtepi32_ps : yreg -> yreg := ymap1 cvtepi32_ps.
(** _mm_shuffle_epi8; _mm256_shuffle_epi8 is the same on both halves *)
Definition mm_shuffle_epi8 (a idx : reg) : reg := map (fun i => if 128 <=? i then 0 else nth (Z.to_nat (i mod 16)) a 0) idx.
(** _mm256_{add,sub,div}_{ps,pd}, _mm256_floor_pd, _mm256_set1_{ps,pd,epi32} *)
Definition y_fadd (w : nat) : yreg -> yreg -> yreg := ymap2 (v_fadd w).
Definition y_fsub (w : nat) : yreg -> yreg -> yreg := ymap2 (v_fsub w).
Definition y_fdiv (w : nat) : yreg -> yreg -> yreg := ymap2 (v_fdiv w).
Definition y_floor_pd : yreg -> yreg := ymap1 (mm_round 8 Down).
Definition yset1_fp (w : nat) (z : Z) : yreg := Ymm (set1_fp w z) (set1_fp w z).
Definition yset1 (w : nat) (z : Z) : yreg := Ymm (set1 w z) (set1 w z).
(** _mm256_packs_epi16, _mm256_packs_epi32: per half *)
Definition ypacks_epi16 : yreg -> yreg -> yreg := ymap2 packs_epi16.
Definition ypacks_epi32 : yreg -> yreg -> yreg := ymap2 packs_epi32.

Section Convert.
  Variable undef : reg.
  Variable avx2 : bool.   (* Vc_IMPL_AVX2 *)

  (** * avx/casts.h:137-284 AVX::convert *)

  (** 141-148, also 174-181 *)
  Definition yconvert_short_int (v : reg) : yreg :=
    if avx2 then ycvtepi16_epi32 v
    else ymap1 (fun r => srai_epi 4 r 16) (Ymm (unpacklo 8 2 v v) (unpackhi 8 2 v v)).
  (** 149-156, also 182-189 *)
  Definition yconvert_ushort_int (v : reg) : yreg :=
    if avx2 then ycvtepu16_epi32 v
    else ymap1 (fun r => srli_epi 4 r 16) (Ymm (unpacklo 8 2 v v) (unpackhi 8 2 v v)).
  (** 158-165; the same with _mm256_blendv_epi8: avx/simd_cast.h:1261-1268 *)
  Definition yconvert_float_uint (v : yreg) : yreg :=
    y_blendv_ps (ycvttps_epi32 v)
      (y_add UInt (ycvttps_epi32 (y_fsub 4 v (yset1_fp 4 (2 ^ 31)))) (yset1 4 (2 ^ 31)))
      (ymap2 (fcmp 4 (fun x y => fle y x)) v (yset1_fp 4 (2 ^ 31))).
  Definition ycast_float_uint (v : yreg) : yreg :=
    y_assign UInt (ycvttps_epi32 v)
      (y_add UInt (ycvttps_epi32 (y_fsub 4 v (yset1_fp 4 (2 ^ 31)))) (yset1 4 (2 ^ 31)))
      (ymap2 (fcmp 4 (fun x y => fle y x)) v (yset1_fp 4 (2 ^ 31))).
  (** 166-171 *)
  Definition yconvert_double_uint (v : yreg) : reg :=
    mm_xor (ycvttpd_epi32 (y_fsub 8 (y_floor_pd v) (yset1_fp 8 0x80000000))) (set1 4 (2 ^ 31)).
  (** 194-231; the variant for targets with FMA4 or other instructions does not exist *)
  Definition yconvert_uint_float (v : yreg) : yreg :=
    y_blendv_ps (ycvtepi32_ps v)
      (y_fadd 4 (ycvtepi32_ps (ymap2 mm_and v (yset1 4 0x7ffffe00)))
         (y_fadd 4 (yset1_fp 4 (2 ^ 31)) (ycvtepi32_ps (ymap2 mm_and v (yset1 4 0x000001ff)))))
      (ymap2 (cmplt_epi 4) v yzero).
  (** 238-242 *)
  Definition yconvert_uint_double (v : reg) : yreg :=
    y_fadd 8 (ycvtepi32_pd (mm_xor v (setmin_epi 4))) (yset1_fp 8 (2 ^ 31)).
  (** 246-260, also 261 for unsigned int; permute4x64 with the immediate 0xf8: lanes 0, 2, 3, 3 *)
  Definition narrow_shuf : reg := [0; 1; 4; 5; 8; 9; 12; 13; 128; 128; 128; 128; 128; 128; 128; 128].
  Definition yconvert_int_ushort (v : yreg) : reg :=
    let tmp0 := unpacklo 8 2 (lo128 v) (hi128 v) in
    let tmp1 := unpackhi 8 2 (lo128 v) (hi128 v) in
    let tmp2 := unpacklo 8 2 tmp0 tmp1 in
    let tmp3 := unpackhi 8 2 tmp0 tmp1 in
    unpacklo 8 2 tmp2 tmp3.
  Definition yconvert_int_short (v : yreg) : reg :=
    if avx2 then lo128 (permute4x64 8 (ymap1 (fun r => mm_shuffle_epi8 r narrow_shuf) v) 0xf8)
    else yconvert_int_ushort v.
  (** 262-263, 281-282 *)
  Definition yconvert_float_short (v : yreg) : reg := yconvert_int_short (ycvttps_epi32 v).
  Definition yconvert_double_short (v : yreg) : reg := packs_epi32 (ycvttpd_epi32 v) mm_setzero.
  Definition yconvert_float_ushort (v : yreg) : reg := yconvert_int_ushort (yconvert_float_uint v).
  Definition yconvert_double_ushort (v : yreg) : reg := convert_int_ushort (yconvert_double_uint v).

  (** The converting constructors, avx/vector.h:133-151: AVX::convert<U, T> of the register, of its low
      half if sizeof(U) < sizeof(T) (avx/casts.h:286-301), zeroExtendIfNeeded.  The implicit one (line
      137) is used for equal sizes only. *)
  Definition avx_construct (from to : etype) (v : yreg) : yreg :=
    match to, from with
    | Int, Float => ycvttps_epi32 v
    | Int, Double => zeroExtend undef (ycvttpd_epi32 v)
    | Int, (Int | UInt) => v
    | (Int | UInt), Short => yconvert_short_int (lo128 v)
    | (Int | UInt), UShort => yconvert_ushort_int (lo128 v)
    | UInt, Float => yconvert_float_uint v
    | UInt, Double => zeroExtend undef (yconvert_double_uint v)
    | UInt, (Int | UInt) => v
    | Float, Float => v
    | Float, Double => zeroExtend undef (ycvtpd_ps v)
    | Float, Int => ycvtepi32_ps v
    | Float, UInt => yconvert_uint_float v
    | Float, Short => ycvtepi32_ps (yconvert_short_int (lo128 v))
    | Float, UShort => ycvtepi32_ps (yconvert_ushort_int (lo128 v))
    | Double, Float => ycvtps_pd (lo128 v)
    | Double, Double => v
    | Double, Int => ycvtepi32_pd (lo128 v)
    | Double, UInt => yconvert_uint_double (lo128 v)
    | Double, Short => ycvtepi32_pd (convert_short_int true (lo128 v))
    | Double, UShort => ycvtepi32_pd (convert_ushort_int true (lo128 v))
    | Short, (Int | UInt) => zeroExtend undef (yconvert_int_short v)
    | Short, Float => zeroExtend undef (yconvert_float_short v)
    | Short, Double => zeroExtend undef (yconvert_double_short v)
    | (Short | UShort), (Short | UShort) => v
    | UShort, (Int | UInt) => zeroExtend undef (yconvert_int_ushort v)
    | UShort, Float => zeroExtend undef (yconvert_float_ushort v)
    | UShort, Double => zeroExtend undef (yconvert_double_ushort v)
    end.

  (** * simd_cast<To>(x0, x1, ...), avx/simd_cast.h *)

  (** SSE to SSE: sse/simd_cast.h:327-421 with the AVX variants of lines 376-396 *)
  Definition xcast_double_int (x0 x1 : reg) : reg := ycvttpd_epi32 (Ymm x0 x1).
  Definition xcast2 (from to : etype) (x0 x1 : reg) : option reg :=
    match from, to with
    | Double, Int => Some (xcast_double_int x0 x1)
    | Double, UInt => Some (yconvert_double_uint (Ymm x0 x1))
    | Double, Float => Some (ycvtpd_ps (Ymm x0 x1))
    | Double, Short => Some (packs_epi32 (xcast_double_int x0 x1) mm_setzero)
    | Double, UShort => Some (convert_int32_to_int16 (xcast_double_int x0 x1) mm_setzero)
    | _, _ => simd_cast2 true from to x0 x1
    end.
  Definition xcast3 (from to : etype) (a b c : reg) : option reg :=
    match from, to with
    | Double, (Short | UShort) => xcast2 Int to (xcast_double_int a b) (convert true Double Int c)
    | _, _ => None
    end.
  Definition xcast4 (from to : etype) (x0 x1 x2 x3 : reg) : option reg :=
    match from, to with
    | Double, Short => Some (packs_epi32 (xcast_double_int x0 x1) (xcast_double_int x2 x3))
    | Double, UShort => xcast2 Int UShort (xcast_double_int x0 x1) (xcast_double_int x2 x3)
    | _, _ => None
    end.
  Definition xcast (from to : etype) (xs : list reg) : option reg :=
    match xs with
    | [x] => Some (simd_cast1 true from to x)
    | [x0; x1] => xcast2 from to x0 x1
    | [a; b; c] => xcast3 from to a b c
    | [x0; x1; x2; x3] => xcast4 from to x0 x1 x2 x3
    | _ => None
    end.

  (** AVX to AVX: 1224-1405.  The overloads from and to integer types need AVX2. *)
  Definition ycast1 (from to : etype) (x : yreg) : yreg :=
    match to, from with
    | Double, Float => ycvtps_pd (lo128 x)
    | Double, Int => ycvtepi32_pd (lo128 x)
    | Double, UInt => yconvert_uint_double (lo128 x)
    | Double, Short => ycvtepi32_pd (convert_short_int true (lo128 x))
    | Double, UShort => ycvtepi32_pd (convert_ushort_int true (lo128 x))
    | Float, Double => zeroExtend undef (ycvtpd_ps x)
    | Float, Int => ycvtepi32_ps x
    | Float, UInt => yconvert_uint_float x
    | Float, Short => ycvtepi32_ps (yconvert_short_int (lo128 x))
    | Float, UShort => ycvtepi32_ps (yconvert_ushort_int (lo128 x))
    | Int, Double => zeroExtend undef (ycvttpd_epi32 x)
    | Int, Float => ycvttps_epi32 x
    | UInt, Double => zeroExtend undef (yconvert_double_uint x)
    | UInt, Float => ycast_float_uint x
    | (Int | UInt), Short => ycvtepi16_epi32 (lo128 x)
    | (Int | UInt), UShort => ycvtepu16_epi32 (lo128 x)
    | Short, Double => zeroExtend undef (packs_epi32 (ycvttpd_epi32 x) mm_setzero)
    | Short, Float => let tmp := ycvttps_epi32 x in zeroExtend undef (packs_epi32 (lo128 tmp) (hi128 tmp))
    | Short, (Int | UInt) => zeroExtend undef (yconvert_int_short x)
    | UShort, Double => zeroExtend undef (packus_epi32 (ycvttpd_epi32 x) mm_setzero)
    | UShort, Float => let tmp := ycvttps_epi32 x in zeroExtend undef (packus_epi32 (lo128 tmp) (hi128 tmp))
    | UShort, (Int | UInt) => zeroExtend undef (yconvert_int_ushort x)
    | _, _ => x
    end.
  (** 1303-1310 and 1311-1318 *)
  Definition ynarrow_short (x0 x1 : yreg) : yreg :=
    let a := ymap1 (fun r => mm_shuffle_epi8 r narrow_shuf) x0 in
    let b := ymap1 (fun r => mm_shuffle_epi8 r narrow_shuf) x1 in
    ymem_permute4x64 8 0 2 1 3 (yunpacklo 8 8 a b).
  (** 1369-1375 and 1376-1382 *)
  Definition ynarrow_ushort (x0 x1 : yreg) : yreg :=
    let tmp0 := yunpacklo 8 2 x0 x1 in
    let tmp1 := yunpackhi 8 2 x0 x1 in
    let tmp2 := yunpacklo 8 2 tmp0 tmp1 in
    let tmp3 := yunpackhi 8 2 tmp0 tmp1 in
    ymem_permute4x64 8 0 2 1 3 (yunpacklo 8 2 tmp2 tmp3).
  Definition ycast2 (from to : etype) (x0 x1 : yreg) : option yreg :=
    match from, to with
    | Double, Float => Some (Ymm (ycvtpd_ps x0) (ycvtpd_ps x1))
    | Double, Int => Some (Ymm (ycvttpd_epi32 x0) (ycvttpd_epi32 x1))
    | Double, UInt => Some (Ymm (yconvert_double_uint x0) (yconvert_double_uint x1))
    | Double, Short => Some (zeroExtend undef (packs_epi32 (ycvttpd_epi32 x0) (ycvttpd_epi32 x1)))
    | Double, UShort => Some (zeroExtend undef (packus_epi32 (ycvttpd_epi32 x0) (ycvttpd_epi32 x1)))
    | Float, Short => Some (ynarrow_short (ycvttps_epi32 x0) (ycvttps_epi32 x1))
    | Float, UShort => Some (ynarrow_ushort (ycvttps_epi32 x0) (ycvttps_epi32 x1))
    | (Int | UInt), Short => Some (ynarrow_short x0 x1)
    | (Int | UInt), UShort => Some (ynarrow_ushort x0 x1)
    | _, _ => None
    end.
  Definition ycast3 (from to : etype) (x0 x1 x2 : yreg) : option yreg :=
    match from, to with
    | Double, Short => Some (Ymm (packs_epi32 (ycvttpd_epi32 x0) (ycvttpd_epi32 x1)) (packs_epi32 (ycvttpd_epi32 x2) mm_setzero))
    | Double, UShort => Some (Ymm (packus_epi32 (ycvttpd_epi32 x0) (ycvttpd_epi32 x1)) (packus_epi32 (ycvttpd_epi32 x2) mm_setzero))
    | _, _ => None
    end.
  Definition ycast4 (from to : etype) (x0 x1 x2 x3 : yreg) : option yreg :=
    match from, to with
    | Double, Short => Some (Ymm (packs_epi32 (ycvttpd_epi32 x0) (ycvttpd_epi32 x1)) (packs_epi32 (ycvttpd_epi32 x2) (ycvttpd_epi32 x3)))
    | Double, UShort => Some (Ymm (packus_epi32 (ycvttpd_epi32 x0) (ycvttpd_epi32 x1)) (packus_epi32 (ycvttpd_epi32 x2) (ycvttpd_epi32 x3)))
    | _, _ => None
    end.
  Definition ycast (from to : etype) (xs : list yreg) : option yreg :=
    if has256 avx2 from && has256 avx2 to then
      match xs with
      | [x] => Some (ycast1 from to x)
      | [x0; x1] => ycast2 from to x0 x1
      | [x0; x1; x2] => ycast3 from to x0 x1 x2
      | [x0; x1; x2; x3] => ycast4 from to x0 x1 x2 x3
      | _ => None
      end
    else None.

  (** SSE to AVX: 1408-1549 *)
  Definition xycast1 (from to : etype) (x : reg) : yreg :=
    match to, from with
    | Double, Double => zeroExtend undef x
    | Double, Float => ycvtps_pd x
    | Double, Int => ycvtepi32_pd x
    | Double, UInt => y_fadd 8 (ycvtepi32_pd (sub_epi 4 x (setmin_epi 4))) (yset1_fp 8 (2 ^ 31))
    | Double, (Short | UShort) => ycvtepi32_pd (simd_cast1 true from Int x)
    | Float, Int => zeroExtend undef (cvtepi32_ps x)
    | Float, Short => ycvtepi32_ps (yconvert_short_int x)
    | Float, UShort => ycvtepi32_ps (yconvert_ushort_int x)
    | (Int | UInt), Short => yconvert_short_int x
    | (Int | UInt), UShort => yconvert_ushort_int x
    | Float, Float | (Int | UInt), (Int | UInt) | (Short | UShort), (Short | UShort) => zeroExtend undef x
    | _, _ => zeroExtend undef (simd_cast1 true from to x)
    end.
  Definition xycast2 (from to : etype) (x0 x1 : reg) : option yreg :=
    match from, to with
    | Double, Double | Float, Float | (Int | UInt), (Int | UInt) | (Short | UShort), (Short | UShort) => Some (Ymm x0 x1)
    | Int, Float => Some (ycvtepi32_ps (Ymm x0 x1))
    | UInt, Float => Some (yconvert_uint_float (Ymm x0 x1))
    | Float, (Int | UInt) => Some (ycast1 Float to (Ymm x0 x1))
    | Double, _ | (Float | Int | UInt), (Short | UShort) => option_map (zeroExtend undef) (xcast2 from to x0 x1)
    | _, _ => None
    end.
  (** the overloads with more arguments join pairs of arguments first *)
  Definition xyjoin (from : etype) (x0 x1 : reg) : yreg := Ymm x0 x1.
  Definition xycast3 (from to : etype) (x0 x1 x2 : reg) : option yreg :=
    match from, to with
    | Double, (Float | Int | UInt) | (Float | Int | UInt), (Short | UShort) =>
        ycast2 from to (xyjoin from x0 x1) (xycast1 from from x2)
    | Double, (Short | UShort) => option_map (zeroExtend undef) (xcast3 from to x0 x1 x2)
    | _, _ => None
    end.
  Definition xycast4 (from to : etype) (x0 x1 x2 x3 : reg) : option yreg :=
    match from, to with
    | Double, (Float | Int | UInt) | (Float | Int | UInt), (Short | UShort) =>
        ycast2 from to (xyjoin from x0 x1) (xyjoin from x2 x3)
    | Double, (Short | UShort) => option_map (zeroExtend undef) (xcast4 from to x0 x1 x2 x3)
    | _, _ => None
    end.
  Definition xycast (from to : etype) (xs : list reg) : option yreg :=
    if has256 avx2 to then
      match xs with
      | [x] => Some (xycast1 from to x)
      | [x0; x1] => xycast2 from to x0 x1
      | [x0; x1; x2] => xycast3 from to x0 x1 x2
      | [x0; x1; x2; x3] => xycast4 from to x0 x1 x2 x3
      | [x0; x1; x2; x3; x4] => ycast3 from to (xyjoin from x0 x1) (xyjoin from x2 x3) (xycast1 from from x4)
      | [x0; x1; x2; x3; x4; x5] => ycast3 from to (xyjoin from x0 x1) (xyjoin from x2 x3) (xyjoin from x4 x5)
      | [x0; x1; x2; x3; x4; x5; x6] => ycast4 from to (xyjoin from x0 x1) (xyjoin from x2 x3) (xyjoin from x4 x5) (xycast1 from from x6)
      | [x0; x1; x2; x3; x4; x5; x6; x7] => ycast4 from to (xyjoin from x0 x1) (xyjoin from x2 x3) (xyjoin from x4 x5) (xyjoin from x6 x7)
      | _ => None
      end
    else None.

  (** AVX to SSE: 1552-1609 *)
  Definition yxcast1 (from to : etype) (x : yreg) : reg :=
    match from, to with
    | Double, Float => lo128 (zeroExtend undef (ycvtpd_ps x))
    | Double, Int => ycvttpd_epi32 x
    | Double, UInt => yconvert_double_uint x
    | Double, Short => yconvert_double_short x
    | Double, UShort => yconvert_double_ushort x
    | Float, Short => yconvert_float_short x
    | Float, UShort => yconvert_float_ushort x
    | (Int | UInt), (Double | Float) => convert true from to (lo128 x)
    | (Int | UInt), (Int | UInt) => lo128 x
    | (Int | UInt), Short => yconvert_int_short x
    | (Int | UInt), UShort => yconvert_int_ushort x
    | _, _ => simd_cast1 true from to (lo128 x)
    end.
  Definition yxcast (from to : etype) (xs : list yreg) : option reg :=
    if has256 avx2 from then
      match xs, from, to with
      | [x], _, _ => Some (yxcast1 from to x)
      | [x0; x1], Double, Short => Some (packs_epi32 (ycvttpd_epi32 x0) (ycvttpd_epi32 x1))
      | [x0; x1], Double, UShort => Some (packus_epi32 (ycvttpd_epi32 x0) (ycvttpd_epi32 x1))
      | _, _, _ => None
      end
    else None.

  (** * simd_cast<To, offset>(x) with offset <> 0: 2557-2620; None: the static_assert *)

  (** AVX to AVX: 2557-2584 *)
  Definition ycast_offset (from to : etype) (offset : nat) (x : yreg) : option yreg :=
    let shift := (esize from * offset * (32 / esize to))%nat in
    if (0 <? shift)%nat && (shift <? 32)%nat then
      if (shift <? 16)%nat then ycast from to [cast256 undef (mm_srli (lo128 x) shift)]
      else if (shift =? 16)%nat then ycast from to [ymem_permute128 8 0 1 Const0 x]
      else ycast from to [cast256 undef (mm_srli (hi128 x) (shift - 16))]
    else None.
  (** AVX to SSE: 2586-2604 *)
  Definition yxcast_offset (from to : etype) (offset : nat) (x : yreg) : option reg :=
    let shift := (esize from * offset * (16 / esize to))%nat in
    if has256 avx2 from && (0 <? shift)%nat && (shift <? 32)%nat then
      if (shift =? 16)%nat then Some (simd_cast1 true from to (hi128 x))
      else Some (simd_cast1 true from to (mm_alignr_epi8 8 0 (hi128 x) (lo128 x) shift))
    else None.
  (** SSE to AVX: 2619-2620, the only combination *)
  Definition xycast_offset (from to : etype) (offset : nat) (x : reg) : option yreg :=
    match from, to, offset with
    | (Short | UShort), Double, 1%nat =>
        option_map (fun i => xycast1 Int Double i) (simd_cast_offset true from Int 1 x)
    | _, _, _ => None
    end.

  (** * simd_cast of masks *)

  (** SSE masks to SSE mask: sse/simd_cast.h:730-766 *)
  Definition xmask_cast (from to : nat) (ks : list reg) : option reg :=
    match ks with
    | [k] => mask_cast from to k
    | [k0; k1] =>
        if (from * 2 =? to)%nat then Some (packs_epi16 k0 k1)
        else if (from * 4 =? to)%nat then Some (packs_epi16 (packs_epi16 k0 k1) mm_setzero)
        else None
    | [k0; k1; k2; k3] =>
        if (from * 4 =? to)%nat then Some (packs_epi16 (packs_epi16 k0 k1) (packs_epi16 k2 k3)) else None
    | _ => None
    end.
  (** AVX masks to AVX mask: 2247-2287.  The join of two double_m uses concat for float_m (2256) and
      permute4x64 for int_m and uint_m (2258-2259). *)
  Definition ymasks_cast (from to : etype) (ks : list yreg) : option yreg :=
    if has256 avx2 from && has256 avx2 to then
      match ks, from, to with
      | [k], _, _ => ymask_cast undef (32 / esize from) (32 / esize to) k
      | [k0; k1], Double, Float => Some (Ymm (packs_epi32 (lo128 k0) (hi128 k0)) (packs_epi32 (lo128 k1) (hi128 k1)))
      | [k0; k1], Double, (Int | UInt) => Some (ymem_permute4x64 8 0 2 1 3 (ypacks_epi32 k0 k1))
      | [k0; k1], Double, (Short | UShort) =>
          Some (zeroExtend undef (packs_epi16 (packs_epi32 (lo128 k0) (hi128 k0)) (packs_epi32 (lo128 k1) (hi128 k1))))
      | [k0; k1], (Float | Int | UInt), (Short | UShort) => Some (ymem_permute4x64 8 0 2 1 3 (ypacks_epi16 k0 k1))
      | [k0; k1; k2; k3], Double, (Short | UShort) =>
          let tmp := ypacks_epi32 (ypacks_epi32 k0 k1) (ypacks_epi32 k2 k3) in
          Some (Ymm (unpacklo 8 4 (lo128 tmp) (hi128 tmp)) (unpackhi 8 4 (lo128 tmp) (hi128 tmp)))
      | _, _, _ => None
      end
    else None.
  (** SSE masks to AVX mask: 2290-2384 *)
  Definition xymasks_cast (from to : etype) (ks : list reg) : option yreg :=
    if has256 avx2 to then
      match ks, to, from with
      | [x], Double, Double => Some (zeroExtend undef x)
      | [x], Double, (Float | Int | UInt) => Some (Ymm (unpacklo 8 4 x x) (unpackhi 8 4 x x))
      | [x], Double, (Short | UShort) =>
          let tmp := unpacklo 8 2 x x in Some (Ymm (unpacklo 8 4 tmp tmp) (unpackhi 8 4 tmp tmp))
      | [x], Float, (Short | UShort) => Some (Ymm (unpacklo 8 2 x x) (unpackhi 8 2 x x))
      | [x], (Int | UInt), (Short | UShort) =>
          let v := ymem_permute4x64 8 0 2 1 3 (cast256 undef x) in Some (yunpacklo 8 2 v v)
      | [x], (Float | Int | UInt), (Float | Int | UInt) => Some (zeroExtend undef x)
      | [x], _, _ => option_map (zeroExtend undef) (xmask_cast (16 / esize from) (16 / esize to) [x])
      | [x0; x1], Double, Double | [x0; x1], (Float | Int | UInt), (Float | Int | UInt)
      | [x0; x1], (Short | UShort), (Short | UShort) => Some (Ymm x0 x1)
      | [x0; x1], (Float | Int | UInt), Double => Some (zeroExtend undef (packs_epi32 x0 x1))
      | [x0; x1], (Short | UShort), Double => Some (zeroExtend undef (packs_epi16 (packs_epi32 x0 x1) mm_setzero))
      | [x0; x1], (Short | UShort), (Float | Int | UInt) => Some (zeroExtend undef (packs_epi16 x0 x1))
      | [x0; x1; x2; x3], (Float | Int | UInt), Double => Some (Ymm (packs_epi32 x0 x1) (packs_epi32 x2 x3))
      | [x0; x1; x2; x3], (Short | UShort), Double =>
          Some (zeroExtend undef (packs_epi16 (packs_epi32 x0 x1) (packs_epi32 x2 x3)))
      | [x0; x1; x2; x3], (Short | UShort), (Float | Int | UInt) => Some (Ymm (packs_epi16 x0 x1) (packs_epi16 x2 x3))
      | _, _, _ => None
      end
    else None.
  (** AVX masks to SSE mask: 2472-2518 *)
  Definition yxmasks_cast (from to : etype) (ks : list yreg) : option reg :=
    if has256 avx2 from then
      match ks, from, to with
      | [x], Double, Double | [x], (Float | Int | UInt), (Float | Int | UInt) => Some (lo128 x)
      | [x], Double, (Float | Int | UInt) => Some (packs_epi32 (lo128 x) (hi128 x))
      | [x], Double, (Short | UShort) => Some (packs_epi16 (packs_epi32 (lo128 x) (hi128 x)) mm_setzero)
      | [x], (Float | Int | UInt), Double => Some (unpacklo 8 4 (lo128 x) (lo128 x))
      | [x], (Float | Int | UInt), (Short | UShort) => Some (packs_epi16 (lo128 x) (hi128 x))
      | [x], (Short | UShort), _ => mask_cast (16 / esize from) (16 / esize to) (lo128 x)
      | [x0; x1], Double, (Short | UShort) =>
          Some (packs_epi16 (packs_epi32 (lo128 x0) (hi128 x0)) (packs_epi32 (lo128 x1) (hi128 x1)))
      | _, _, _ => None
      end
    else None.

  (** simd_cast<To, offset>(mask) with offset <> 0 *)

  (** SSE to SSE: sse/simd_cast.h:885-894 *)
  Definition xmask_cast_offset (from to : etype) (offset : nat) (k : reg) : option reg :=
    let shift := (esize from * offset * (16 / esize to))%nat in
    if (0 <? shift)%nat && (shift <? 16)%nat then mask_cast (16 / esize from) (16 / esize to) (mm_srli k shift) else None.
  (** AVX to AVX: 2629-2667 *)
  Definition ymask_cast_offset (from to : etype) (offset : nat) (k : yreg) : option yreg :=
    let widen (tmp : reg) := Ymm (unpacklo 8 2 tmp tmp) (unpackhi 8 2 tmp tmp) in
    if has256 avx2 from && has256 avx2 to then
      if (32 / esize from =? 32 / esize to * 2)%nat then
        match offset with
        | 1%nat => let tmp := hi128 k in Some (Ymm (unpacklo 8 1 tmp tmp) (unpackhi 8 1 tmp tmp))
        | _ => None
        end
      else if (32 / esize from =? 32 / esize to * 4)%nat then
        match offset with
        | 1%nat => Some (widen (unpackhi 8 1 (lo128 k) (lo128 k)))
        | 2%nat => Some (widen (unpacklo 8 1 (hi128 k) (hi128 k)))
        | 3%nat => Some (widen (unpackhi 8 1 (hi128 k) (hi128 k)))
        | _ => None
        end
      else None
    else None.
  (** SSE to AVX: 2670-2671 *)
  Definition xymask_cast_offset (from to : etype) (offset : nat) (x : reg) : option yreg :=
    match from, to, offset with
    | (Short | UShort), Double, 1%nat =>
        let tmp := unpackhi 8 2 x x in Some (Ymm (unpacklo 8 4 tmp tmp) (unpackhi 8 4 tmp tmp))
    | _, _, _ => None
    end.
  (** AVX to SSE: 2674-2691 *)
  Definition yxmask_cast_offset (from to : etype) (offset : nat) (x : yreg) : option reg :=
    let shift := (esize from * offset * (16 / esize to))%nat in
    if has256 avx2 from && (0 <? shift)%nat && (shift <? 32)%nat then
      if (shift =? 16)%nat then mask_cast (16 / esize from) (16 / esize to) (hi128 x)
      else mask_cast (16 / esize from) (16 / esize to) (mm_alignr_epi8 8 0 (hi128 x) (lo128 x) shift)
    else None.

  (** * integer division *)

  (** avx/detail.h:722-730 *)
  Definition ydiv_int (a b : yreg) : yreg :=
    Ymm (ycvttpd_epi32 (y_fdiv 8 (ycvtepi32_pd (lo128 a)) (ycvtepi32_pd (lo128 b))))
        (ycvttpd_epi32 (y_fdiv 8 (ycvtepi32_pd (hi128 a)) (ycvtepi32_pd (hi128 b)))).
  (** avx/detail.h:731-750 *)
  Definition ydiv_uint (a b : yreg) : yreg :=
    let aa := y_add UInt a (yset1 4 (- 2147483648)) in
    let bb := y_add UInt b (yset1 4 (- 2147483648)) in
    let conv r := y_fadd 8 (ycvtepi32_pd r) (yset1_fp 8 2147483648) in
    y_blendv_ps
      (Ymm (ycvttpd_epi32 (y_fdiv 8 (conv (lo128 aa)) (conv (lo128 bb))))
           (ycvttpd_epi32 (y_fdiv 8 (conv (hi128 aa)) (conv (hi128 bb)))))
      a (y_cmpeq UInt b (yset1 4 1)).
  (** avx/detail.h:751-758 *)
  Definition ydiv_short (a b : yreg) : yreg :=
    let conv r := ycvtepi32_ps (yconvert_short_int r) in
    Ymm (yconvert_float_short (y_fdiv 4 (conv (lo128 a)) (conv (lo128 b))))
        (yconvert_float_short (y_fdiv 4 (conv (hi128 a)) (conv (hi128 b)))).
  (** avx/vector.tcc:119-136; [gt] is the comparison of AvxArith.v *)
  Definition ydiv_ushort (gcc : bool) (a b : yreg) : yreg :=
    let conv r := ycvtepi32_ps (yconvert_ushort_int r) in
    let half r s :=
      let q := y_fdiv 4 (conv r) (conv s) in
      if ym_not_empty 4 (y_gt gcc Float q (yset1_fp 4 32767)) then yconvert_float_ushort q else yconvert_float_short q in
    Ymm (half (lo128 a) (lo128 b)) (half (hi128 a) (hi128 b)).
  Definition y_idiv (gcc : bool) (e : etype) (a b : yreg) : yreg :=
    match e with
    | Short => ydiv_short a b
    | UShort => ydiv_ushort gcc a b
    | UInt => ydiv_uint a b
    | _ => ydiv_int a b
    end.
  (** avx/vector.tcc:137-142 *)
  Definition y_imod (gcc : bool) (e : etype) (a b : yreg) : yreg := y_sub e a (y_mul e (y_idiv gcc e a b) b).
End Convert.
