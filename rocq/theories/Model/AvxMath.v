(** Floating-point functions of the AVX vectors: avx/math.h, parts of avx/vector.tcc, avx/detail.h and avx/vectorhelper.h,
    and Random().

    [w] is the entry size: 4 (float_v) or 8 (double_v).  [avx2] is Vc_IMPL_AVX2; [undef] is the upper half of a 128-bit
    register cast to 256 bits (AvxMove.v).  A SimdArray<int, 8> is one AVX2::int_v in AVX2 builds and two SSE::int_v
    otherwise; both are written as the 256-bit register with the same entries.  Not modelled: the variants with FMA and
    FMA4 instructions (sqrt, rsqrt, reciprocal: Roots.v), and the functions that approximate (exp, log, sin, ...). *)
From Coq Require Import ZArith List Bool.
From Verif.Spec Require Import Seq FloatSpec.
From Verif.Model Require Import Word Fp FpArith SseReg SseMove SortNet SseInt SseBuild SseArith SseMask SimdArray Mem SseConvert SseMath
  AvxReg AvxMove AvxBuild AvxShuffle AvxMask AvxArith AvxConvert.
Import ListNotations.
Local Open Scope Z_scope.

(** * constants: src/const.cpp:166-177, 181, 209; avx/intrinsics.h:118-124; avx/const.h:92 *)
Definition absMaskFloat : Z * Z := (0xffffffff, 0x7fffffff).
Definition signMaskFloat : Z * Z := (0, 0x80000000).
(** broadcast_ss of the second word, broadcast_sd of both words *)
Definition broadcast_mask (w : nat) (m : Z * Z) : yreg :=
  match w with 4%nat => yset1 4 (snd m) | _ => yset1 8 (fst m + 2 ^ 32 * snd m) end.
Definition yabs_mask (w : nat) : yreg := broadcast_mask w absMaskFloat.
Definition ysign_mask (w : nat) : yreg := broadcast_mask w signMaskFloat.
Definition yexponent_mask (w : nat) : yreg := match w with 4%nat => yset1 4 0x7f800000 | _ => yset1 8 0x7ff0000000000000 end.
Definition y_one (w : nat) : yreg := match w with 4%nat => yset1 4 0x3f800000 | _ => yset1 8 0x3ff0000000000000 end.
Definition yfrexp_mask (w : nat) : yreg := match w with 4%nat => yset1 4 0xbf7fffff | _ => yset1 8 0xbfefffffffffffff end.
Definition yhigh_mask_double : yreg := yset1 8 0xfffffffff8000000.
Definition yand : yreg -> yreg -> yreg := ymap2 mm_and.
Definition yor : yreg -> yreg -> yreg := ymap2 mm_or.
Definition y_fmul (w : nat) : yreg -> yreg -> yreg := ymap2 (v_fmul w).

(** * classification: avx/math.h:82-89, 102-136 *)
Definition y_fabs (w : nat) (x : yreg) : yreg := yand x (yabs_mask w).
Definition y_isfinite (w : nat) (x : yreg) : yreg := ymap2 (cmpord w) x (y_fmul w yzero x).
(** AVX::cmpeq_epi32, cmpeq_epi64: without AVX2 the SSE4.1 instructions on both halves *)
Definition y_isinf (w : nat) (x : yreg) : yreg := ymap2 (cmpeq_epi w) (y_fabs w x) (yexponent_mask w).
Definition y_isnan (w : nat) (x : yreg) : yreg := ymap2 (cmpunord w) x x.
(** avx/math.h:139-149 *)
Definition y_copysign (w : nat) (mag sign : yreg) : yreg := yor (yand sign (ysign_mask w)) (yand mag (yabs_mask w)).
(** avx/vector.tcc:378-387 *)
Definition y_isnegative (w : nat) (x : yreg) : yreg :=
  match w with
  | 4%nat => ymap1 (fun r => srai_epi 4 r 31) (yand (ysign_mask 4) x)
  | _ => ymem_permute_ps 8 1 1 3 3 (ymap1 (fun r => srai_epi 4 r 31) (yand (ysign_mask 8) x))
  end.

(** * exponent: avx/vector.tcc:628-646.  Mem::shuffle<X0, X2, Y0, Y2> of two 128-bit registers is
    shuffle_ps with the immediate 0 + 2 * 4 + 0 * 16 + 2 * 64 (sse/shuffle.h:118-122) *)
Definition shuffle_even (a b : reg) : reg := shuffle_ps 8 a b (0 + 2 * 4 + 0 * 16 + 2 * 64)%nat.
Definition y_exponent (w : nat) (v : yreg) : yreg :=
  match w with
  | 4%nat =>
      let tmp0 := sub_epi 4 (srli_epi 4 (lo128 v) 23) (set1 4 0x7f) in
      let tmp1 := sub_epi 4 (srli_epi 4 (hi128 v) 23) (set1 4 0x7f) in
      ycvtepi32_ps (Ymm tmp0 tmp1)
  | _ =>
      let tmp0 := sub_epi 4 (srli_epi 8 (lo128 v) 52) (set1 4 0x3ff) in
      let tmp1 := sub_epi 4 (srli_epi 8 (hi128 v) 52) (set1 4 0x3ff) in
      ycvtepi32_pd (shuffle_even tmp0 tmp1)
  end.

(** v == Zero(), and isnan(v) || !isfinite(v) || v == Zero() *)
Definition yzero_lanes (w : nat) (v : yreg) : yreg := ymap2 (fcmp w feq) v yzero.
Definition yspecial_lanes (w : nat) (v : yreg) : yreg :=
  ym_or (ym_or (y_isnan w v) (ym_not (y_isfinite w v))) (yzero_lanes w v).

Section Math.
  Variable undef : reg.
  Variable avx2 : bool.

  (** simd_cast of a float_m to the mask of SimdArray<int, 8>: one AVX2::int_m, or two SSE::int_m *)
  Definition int8_mask (k : yreg) : option yreg :=
    if avx2 then ymasks_cast undef avx2 Float Int [k]
    else lo <-- yxmasks_cast avx2 Float Int [k]; hi <-- yxmask_cast_offset avx2 Float Int 1 k; Some (Ymm lo hi).

  (** * frexp; (result, exponents) *)

  (** avx/math.h:217-241: float_v with extractExponent *)
  Definition y_frexp_ps (v : yreg) : option (yreg * yreg) :=
    let exponentBits := yexponent_mask 4 in
    let e := y_sub UInt (y_shr UInt (yand v exponentBits) 23) (yset1 4 0x7e) in
    let exponentMaximized := yor v exponentBits in
    let ret := yand exponentMaximized (yfrexp_mask 4) in
    let ret := y_assign Float ret v (yspecial_lanes 4 v) in
    k <-- int8_mask (yzero_lanes 4 v);
    Some (ret, y_set_zero e k).
  (** avx/math.h:159-177: double_v; the exponents are an SSE::int_v *)
  Definition y_frexp_pd (v : yreg) : option (yreg * reg) :=
    let exponentBits := yexponent_mask 8 in
    let exponentPart := yand v exponentBits in
    let lo := sub_epi 4 (srli_epi 8 (lo128 exponentPart) 52) (set1 8 0x3fe) in
    let hi := sub_epi 4 (srli_epi 8 (hi128 exponentPart) 52) (set1 8 0x3fe) in
    let exponent := shuffle_even lo hi in
    let exponentMaximized := yor v exponentBits in
    let ret := yand exponentMaximized (yfrexp_mask 8) in
    let zeroMask := yzero_lanes 8 v in
    let ret := y_assign Double ret v (yspecial_lanes 8 v) in
    k <-- yxmasks_cast avx2 Double Int [zeroMask];
    Some (ret, v_set_zero exponent k).
  (** avx/math.h:180-212: SimdArray<double, 8> as two registers, in AVX2 builds.  _mm_unpacklo_epi64 and
      _mm_unpackhi_epi64 join the halves of tmp *)
  Definition y_frexp_pd8 (v0 v1 : yreg) : option (yreg * yreg * yreg) :=
    let exponentBits := yexponent_mask 8 in
    let part v := y_sub Int (ymap1 (fun r => srli_epi 8 r 52) (yand v exponentBits)) (yset1 4 0x3fe) in
    let lo := part v0 in
    let hi := part v1 in
    let a := yunpacklo 8 4 lo hi in
    let b := yunpackhi 8 4 lo hi in
    let tmp := yunpacklo 8 4 a b in
    let exponent := Ymm (unpacklo 8 8 (lo128 tmp) (hi128 tmp)) (unpackhi 8 8 (lo128 tmp) (hi128 tmp)) in
    let ret v := y_assign Double (yand (yor v exponentBits) (yfrexp_mask 8)) v (yspecial_lanes 8 v) in
    k <-- ymasks_cast undef true Double Int [yzero_lanes 8 v0; yzero_lanes 8 v1];
    Some (ret v0, ret v1, ymap2 mm_andnot k exponent).

  (** * ldexp *)

  (** avx/math.h:248-257: double_v, the exponents are an SSE::int_v *)
  Definition y_ldexp_pd (v : yreg) (e : reg) : option yreg :=
    k <-- yxmasks_cast avx2 Double Int [yzero_lanes 8 v];
    let e := v_set_zero e k in
    let exponentBits := Ymm (slli_epi 8 (unpacklo 8 4 e e) 52) (slli_epi 8 (unpackhi 8 4 e e) 52) in
    Some (ymap2 (add_epi 8) v exponentBits).
  (** avx/math.h:258-275: float_v *)
  Definition y_ldexp_ps (v e : yreg) : option yreg :=
    k <-- int8_mask (yzero_lanes 4 v);
    let e := y_shl Int (y_set_zero e k) 23 in
    Some (Ymm (add_epi 4 (lo128 v) (lo128 e)) (add_epi 4 (hi128 v) (hi128 e))).
End Math.

(** * trunc, floor, ceil: avx/math.h:278-305; round: avx/vectorhelper.h:169-171, 244-246 (_MM_FROUND_NINT) *)
Definition y_trunc (w : nat) : yreg -> yreg := ymap1 (mm_round w ToZero).
Definition y_floor (w : nat) : yreg -> yreg := ymap1 (mm_round w Down).
Definition y_ceil (w : nat) : yreg -> yreg := ymap1 (mm_round w Up).
Definition y_round (w : nat) : yreg -> yreg := ymap1 (mm_round w ToNearest).

(** * fma: avx/detail.h:842-882, without FMA instructions *)
Definition y_fma_ps (a b c : yreg) : yreg :=
  let v1_0 := ycvtps_pd (lo128 a) in
  let v1_1 := ycvtps_pd (hi128 a) in
  let v2_0 := ycvtps_pd (lo128 b) in
  let v2_1 := ycvtps_pd (hi128 b) in
  let v3_0 := ycvtps_pd (lo128 c) in
  let v3_1 := ycvtps_pd (hi128 c) in
  Ymm (ycvtpd_ps (y_fadd 8 (y_fmul 8 v1_0 v2_0) v3_0)) (ycvtpd_ps (y_fadd 8 (y_fmul 8 v1_1 v2_1) v3_1)).
Definition y_fma_pd (a b c : yreg) : yreg :=
  let h1 := yand a yhigh_mask_double in
  let h2 := yand b yhigh_mask_double in
  let l1 := y_fsub 8 a h1 in
  let l2 := y_fsub 8 b h2 in
  let ll := y_fmul 8 l1 l2 in
  let lh := y_fadd 8 (y_fmul 8 l1 h2) (y_fmul 8 h1 l2) in
  let hh := y_fmul 8 h1 h2 in
  let lh_lt_v3 := ymap2 (fcmp 8 flt) (y_fabs 8 lh) (y_fabs 8 c) in
  let x := y_assign Double c lh lh_lt_v3 in
  let y := y_assign Double lh c lh_lt_v3 in
  y_fadd 8 (y_fadd 8 ll x) (y_fadd 8 y hh).
(** the integer vectors: avx/detail.h:883-886 *)
Definition y_fma_int (e : etype) (a b c : yreg) : yreg := y_add e (y_mul e a b) c.

(** * Random(): avx/vector.tcc:662-718; the state and its 16 words: see SseMath.v *)
Definition yrandom_step (avx2 : bool) (s : random_state) : yreg * random_state :=
  let load i n := firstn n (skipn i s) in
  if avx2 then
    let state0 := ypack (load 0 8)%nat in
    let state1 := ypack (load 8 8)%nat in
    let s1' := y_add UInt (y_mul UInt state1 (yset1 4 0xdeece66d)) (yset1 4 11) in
    let s0' := ymap2 mm_xor (y_add UInt (y_mul UInt state0 (yset1 4 0xdeece66d)) (yset1 4 11)) (ymap1 (fun r => srli_epi 4 r 16) state1) in
    (state0, ylanes 4 s0' ++ ylanes 4 s1' ++ skipn 16 s)
  else
    let state0 := pack (load 0 4)%nat in
    let state1 := pack (load 4 4)%nat in
    let state2 := pack (load 8 4)%nat in
    let state3 := pack (load 12 4)%nat in
    let step v := v_add UInt (v_mul true UInt v (set1 4 0xdeece66d)) (set1 4 11) in
    let s2' := step state2 in
    let s3' := step state3 in
    let s0' := mm_xor (step state0) (srli_epi 4 state2 16) in
    let s1' := mm_xor (step state1) (srli_epi 4 state3 16) in
    (Ymm state0 state1, lanes 4 s0' ++ lanes 4 s1' ++ lanes 4 s2' ++ lanes 4 s3' ++ skipn 16 s).
(** 696-699: the integer vectors *)
Definition yrandom_int : random_state -> yreg * random_state := yrandom_step true.
(** 702-706 *)
Definition yrandom_ps (avx2 : bool) (s : random_state) : yreg * random_state :=
  let (state, s') := yrandom_step avx2 s in
  (y_fsub 4 (yor (ymap1 (fun r => srli_epi 4 r 2) state) (y_one 4)) (y_one 4), s').
(** 708-718: the words 0 .. 7 as four 64-bit numbers *)
Definition yrandom_pd (s : random_state) : yreg * random_state :=
  let state := ypack (firstn 8 s) in
  let next := ymap1 (lift1 8 (fun x => mkw 8 (uval x * 0x5deece66d + 11))) state in
  (y_fsub 8 (yor (ymap1 (fun r => srli_epi 8 r 12) state) (y_one 8)) (y_one 8), ylanes 4 next ++ skipn 8 s).
