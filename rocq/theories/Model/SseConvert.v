(** Conversions between SSE vectors (sse/casts.h, sse/simd_cast.h) and integer division (sse/vector.tcc). *)
From Coq Require Import ZArith List Bool.
From Verif.Spec Require Import Seq.
From Verif.Model Require Import Word Fp FpArith SseReg SseMove SortNet SseInt SseBuild SseArith SseMask SimdArray Mem.
Import ListNotations.
Local Open Scope Z_scope.

(** * instructions *)

(** _mm_cvtepi32_ps, _mm_cvttps_epi32, _mm_cvtepi32_pd, _mm_cvttpd_epi32, _mm_cvtpd_ps, _mm_cvtps_pd *)
Definition cvtepi32_ps : reg -> reg := lift1 4 (fun x => of_int 4 (sval x)).
Definition cvttps_epi32 : reg -> reg := lift1 4 (cvt_int32 ToZero).
Definition cvtepi32_pd (a : reg) : reg := pack (map (fun x => of_int 8 (sval x)) (firstn 2 (lanes 4 a))).
Definition cvttpd_epi32 (a : reg) : reg := pack (map (cvt_int32 ToZero) (lanes 8 a) ++ [w0 4; w0 4]).
Definition cvtpd_ps (a : reg) : reg := pack (map to_float (lanes 8 a) ++ [w0 4; w0 4]).
Definition cvtps_pd (a : reg) : reg := pack (map to_double (firstn 2 (lanes 4 a))).
(** _mm_packus_epi32 *)
Definition packus_epi32 (a b : reg) : reg :=
  pack (map (fun x => mkw 2 (Z.max 0 (Z.min (2 ^ 16 - 1) (sval x)))) (lanes 4 a ++ lanes 4 b)).
(** _mm_cvtsi64_si128 *)
Definition cvtsi64 (z : Z) : reg := pack [mkw 8 z; w0 8].
(** _mm_movelh_ps, _mm_unpacklo_epi64 *)
Definition movelh_ps (a b : reg) : reg := unpacklo 8 8 a b.
(** addps, subps, mulps, divps and the double forms *)
Definition v_fadd (w : nat) : reg -> reg -> reg := lift2 w fadd.
Definition v_fsub (w : nat) : reg -> reg -> reg := lift2 w fsub.
Definition v_fmul (w : nat) : reg -> reg -> reg := lift2 w fmul.
Definition v_fdiv (w : nat) : reg -> reg -> reg := lift2 w fdiv.
(** _mm_set1_ps(z), _mm_set1_pd(z) *)
Definition set1_fp (w : nat) (z : Z) : reg := set1 w (uval (of_int w z)).
(** _mm_floor_pd *)
Definition mm_round (w : nat) (r : rounding) : reg -> reg := lift1 w (round_to r).

(** * sse/casts.h:67-152 *)

Section Convert.
  Variable sse41 : bool.   (* Vc_IMPL_SSE4_1 *)

  (** 71-77 *)
  Definition convert_short_int (v : reg) : reg :=
    if sse41 then mm_cvtepi 2 v else srai_epi 4 (unpacklo 8 2 v v) 16.
  (** 78-84 *)
  Definition convert_ushort_int (v : reg) : reg :=
    if sse41 then mm_cvtepu 2 v else srli_epi 4 (unpacklo 8 2 v v) 16.
  (** 85-92 *)
  Definition convert_float_uint (v : reg) : reg :=
    blendv_epi8 sse41 (cvttps_epi32 v)
      (mm_xor (cvttps_epi32 (v_fsub 4 v (set1_fp 4 (2 ^ 31)))) (set1 4 (2 ^ 31)))
      (fcmp 4 (fun x y => fle y x) v (set1_fp 4 (2 ^ 31))).
  (** 93-103 *)
  Definition convert_double_uint (v : reg) : reg :=
    if sse41 then
      mm_xor (cvttpd_epi32 (v_fsub 8 (mm_round 8 Down v) (set1_fp 8 0x80000000))) (cvtsi64 0x8000000080000000)
    else
      blendv_epi8 sse41 (cvttpd_epi32 v)
        (mm_xor (cvttpd_epi32 (v_fsub 8 v (set1_fp 8 0x80000000))) (cvtsi64 0x8000000080000000))
        (fcmp 8 (fun x y => fle y x) v (set1_fp 8 0x80000000)).
  (** 111-120 *)
  Definition convert_uint_float (v : reg) : reg :=
    blendv_epi8 sse41 (cvtepi32_ps v)
      (v_fadd 4 (cvtepi32_ps (mm_and v (set1 4 0x7ffffe00)))
         (v_fadd 4 (set1_fp 4 (2 ^ 31)) (cvtepi32_ps (mm_and v (set1 4 0x000001ff)))))
      (cmplt_epi 4 v mm_setzero).
  (** 126 *)
  Definition convert_uint_double (v : reg) : reg :=
    v_fadd 8 (cvtepi32_pd (mm_xor v (setmin_epi 4))) (set1_fp 8 (2 ^ 31)).
  (** 135-148; the same as convert_int32_to_int16(v, 0) *)
  Definition convert_int_ushort (v : reg) : reg :=
    let tmp0 := unpacklo 8 2 v mm_setzero in
    let tmp1 := unpackhi 8 2 v mm_setzero in
    let tmp2 := unpacklo 8 2 tmp0 tmp1 in
    let tmp3 := unpackhi 8 2 tmp0 tmp1 in
    unpacklo 8 2 tmp2 tmp3.
  Definition convert_double_int (v : reg) : reg := cvttpd_epi32 v.

  (** convert<From, To> *)
  Definition convert (from to : etype) (v : reg) : reg :=
    match to, from with
    | Int, Float => cvttps_epi32 v
    | Int, Double => convert_double_int v
    | Int, (Int | UInt) => v
    | Int, Short => convert_short_int v
    | Int, UShort => convert_ushort_int v
    | UInt, Float => convert_float_uint v
    | UInt, Double => convert_double_uint v
    | UInt, (Int | UInt) => v
    | UInt, Short => convert_short_int v
    | UInt, UShort => convert_ushort_int v
    | Float, Float => v
    | Float, Double => cvtpd_ps v
    | Float, Int => cvtepi32_ps v
    | Float, UInt => convert_uint_float v
    | Float, Short => cvtepi32_ps (convert_short_int v)
    | Float, UShort => cvtepi32_ps (convert_ushort_int v)
    | Double, Float => cvtps_pd v
    | Double, Double => v
    | Double, Int => cvtepi32_pd v
    | Double, UInt => convert_uint_double v
    | Double, Short => cvtepi32_pd (convert_short_int v)
    | Double, UShort => cvtepi32_pd (convert_ushort_int v)
    | Short, Float => packs_epi32 (cvttps_epi32 v) mm_setzero
    | Short, (Int | UInt) => packs_epi32 v mm_setzero
    | Short, (Short | UShort) => v
    | Short, Double => packs_epi32 (convert_double_int v) mm_setzero
    | UShort, (Int | UInt) => convert_int_ushort v
    | UShort, Float => convert_int_ushort (cvttps_epi32 v)
    | UShort, (Short | UShort) => v
    | UShort, Double => convert_int_ushort (convert_double_int v)
    end.

  (** * sse/simd_cast.h *)

  (** 316-323 *)
  Definition convert_int32_to_int16 (a b : reg) : reg :=
    let tmp0 := unpacklo 8 2 a b in
    let tmp1 := unpackhi 8 2 a b in
    let tmp2 := unpacklo 8 2 tmp0 tmp1 in
    let tmp3 := unpackhi 8 2 tmp0 tmp1 in
    unpacklo 8 2 tmp2 tmp3.

  (** 327-374: simd_cast<To>(from); there is no overload for To = From, which is the identity *)
  Definition simd_cast1 (from to : etype) (x : reg) : reg :=
    match to, from with
    | Short, (Int | UInt) | UShort, (Int | UInt) => convert_int32_to_int16 x mm_setzero
    | Short, (Float | Double) => packs_epi32 (convert from Int x) mm_setzero
    | UShort, (Float | Double) => convert_int32_to_int16 (convert from Int x) mm_setzero
    | Short, UShort | UShort, Short => x
    | _, _ => convert from to x
    end.
  (** 376-406, without AVX; None: no overload *)
  Definition cast2_double_int (x0 x1 : reg) : reg := unpacklo 8 8 (convert Double Int x0) (convert Double Int x1).
  Definition simd_cast2 (from to : etype) (x0 x1 : reg) : option reg :=
    match from, to with
    | Double, Int => Some (cast2_double_int x0 x1)
    | Double, UInt => Some (unpacklo 8 8 (convert Double UInt x0) (convert Double UInt x1))
    | Double, Float => Some (movelh_ps (cvtpd_ps x0) (cvtpd_ps x1))
    | (Int | UInt), (Short | UShort) => Some (convert_int32_to_int16 x0 x1)
    | Float, Short => Some (packs_epi32 (convert Float Int x0) (convert Float Int x1))
    | Double, Short => Some (packs_epi32 (cast2_double_int x0 x1) mm_setzero)
    | Float, UShort => Some (convert_int32_to_int16 (convert Float Int x0) (convert Float Int x1))
    | Double, UShort => Some (convert_int32_to_int16 (cast2_double_int x0 x1) mm_setzero)
    | _, _ => None
    end.
  (** 409-416 *)
  Definition simd_cast3 (from to : etype) (a b c : reg) : option reg :=
    match from, to with
    | Double, (Short | UShort) => simd_cast2 Int to (cast2_double_int a b) (convert Double Int c)
    | _, _ => None
    end.
  (** 420-421 *)
  Definition simd_cast4 (from to : etype) (x0 x1 x2 x3 : reg) : option reg :=
    match from, to with
    | Double, Short => Some (packs_epi32 (cast2_double_int x0 x1) (cast2_double_int x2 x3))
    | Double, UShort => simd_cast2 Int UShort (cast2_double_int x0 x1) (cast2_double_int x2 x3)
    | _, _ => None
    end.
  (** simd_cast<To>(x0, ...) of one to four vectors *)
  Definition simd_cast (from to : etype) (xs : list reg) : option reg :=
    match xs with
    | [x] => Some (simd_cast1 from to x)
    | [x0; x1] => simd_cast2 from to x0 x1
    | [a; b; c] => simd_cast3 from to a b c
    | [x0; x1; x2; x3] => simd_cast4 from to x0 x1 x2 x3
    | _ => None
    end.
  (** 840-872: simd_cast<To, offset>(x); None: the static_assert *)
  Definition simd_cast_offset (from to : etype) (offset : nat) (x : reg) : option reg :=
    if Nat.eqb offset 0 then Some (simd_cast1 from to x)
    else
      let shift := (esize from * offset * (16 / esize to))%nat in
      if (0 <? shift)%nat && (shift <? 16)%nat then Some (simd_cast1 from to (mm_srli x shift)) else None.
End Convert.

(** * integer division: sse/vector.tcc:146-170 *)

(** VectorHelper<short>, VectorHelper<unsigned short>: sse/vectorhelper.h:453-455, 519-532 *)
Definition h_concat (sse41 : bool) (e : etype) (a b : reg) : reg :=
  match e with
  | Short => packs_epi32 a b
  | _ => if sse41 then packus_epi32 a b else convert_int32_to_int16 a b
  end.
Definition h_expand0 (e : etype) (x : reg) : reg :=
  match e with Short => srai_epi 4 (unpacklo 8 2 x x) 16 | _ => unpacklo 8 2 x mm_setzero end.
Definition h_expand1 (e : etype) (x : reg) : reg :=
  match e with Short => srai_epi 4 (unpackhi 8 2 x x) 16 | _ => unpackhi 8 2 x mm_setzero end.
(** vector.tcc:153-164 *)
Definition div16 (sse41 : bool) (e : etype) (a b : reg) : reg :=
  let lo := v_fdiv 4 (cvtepi32_ps (h_expand0 e a)) (cvtepi32_ps (h_expand0 e b)) in
  let hi := v_fdiv 4 (cvtepi32_ps (h_expand1 e a)) (cvtepi32_ps (h_expand1 e b)) in
  h_concat sse41 e (cvttps_epi32 lo) (cvttps_epi32 hi).
(** a[i] / b[i] of int (C++ truncating division, undefined for zero divisors and overflow) and unsigned int *)
Definition cxx_div (e : etype) (a b : word 4) : option (word 4) :=
  match e with
  | Int => if (sval b =? 0) || ((sval a =? - 2 ^ 31) && (sval b =? -1)) then None else Some (mkw 4 (Z.quot (sval a) (sval b)))
  | _ => if uval b =? 0 then None else Some (mkw 4 (uval a / uval b))
  end.
(** vector.tcc:146-152 *)
Definition div32 (e : etype) (a b : reg) : option reg :=
  option_map pack (sequence (map2 (cxx_div e) (lanes 4 a) (lanes 4 b))).
(** operator/ of the integer types; None: undefined behaviour *)
Definition v_idiv (sse41 : bool) (e : etype) (a b : reg) : option reg :=
  match e with
  | Short | UShort => Some (div16 sse41 e a b)
  | _ => div32 e a b
  end.
(** vector.tcc:165-170 *)
Definition v_imod (sse41 : bool) (e : etype) (a b : reg) : option reg :=
  q <-- v_idiv sse41 e a b;
  Some (v_sub e a (v_mul sse41 e q b)).

(** * converting deinterleave into float vectors: sse/deinterleave.tcc:41-51, 122-134 *)
Definition deinterleave_short_float (tmp : reg) : reg * reg :=
  (cvtepi32_ps (srai_epi 4 (slli_epi 4 tmp 16) 16), cvtepi32_ps (srai_epi 4 tmp 16)).
Definition deinterleave_ushort_float (tmp : reg) : reg * reg :=
  (cvtepi32_ps (srli_epi 4 (slli_epi 4 tmp 16) 16), cvtepi32_ps (srli_epi 4 tmp 16)).
Definition deinterleave_mem_short_float (m : memory (word 2)) (mem : Z) : option (reg * reg) :=
  tmp <-- mem_load m mem 8;
  Some (deinterleave_short_float (pack tmp)).
Definition deinterleave_mem_ushort_float (m : memory (word 2)) (mem : Z) : option (reg * reg) :=
  tmp <-- mem_load m mem 8;
  Some (deinterleave_ushort_float (pack tmp)).
