(** Floating-point functions of the SSE vectors: sse/math.h, parts of sse/vectorhelper.h and sse/vector.tcc, and
    Random().

    [w] is the entry size: 4 (float_v) or 8 (double_v).  Masks are registers; blendv_ps and blendv_pd select by the
    sign bit of the lane and are modelled by the byte-wise blendv_epi8, which is the same for the complete masks
    produced by comparisons.  Not modelled: the FMA4 variants of fma (sqrt, rsqrt, reciprocal: Roots.v), and the functions that
    approximate (exp, log, sin, ...). *)
From Coq Require Import ZArith List Bool.
From Verif.Spec Require Import Seq FloatSpec.
From Verif.Model Require Import Word Fp FpArith SseReg SseMove SortNet SseInt SseBuild SseArith SseMask SimdArray Mem SseConvert.
Import ListNotations.
Local Open Scope Z_scope.

(** * constants: src/const.cpp:273-290, 426-456 (c_log<T>::d(1)) *)
Definition abs_mask (w : nat) : reg := set1 w (2 ^ (bits w - 1) - 1).
Definition sign_mask (w : nat) : reg := set1 w (2 ^ (bits w - 1)).
Definition exponent_mask (w : nat) : reg := match w with 4%nat => set1 4 0x7f800000 | _ => set1 8 0x7ff0000000000000 end.
Definition v_one (w : nat) : reg := match w with 4%nat => set1 4 0x3f800000 | _ => set1 8 0x3ff0000000000000 end.
Definition frexp_mask (w : nat) : reg := match w with 4%nat => set1 4 0xbf7fffff | _ => set1 8 0xbfefffffffffffff end.
Definition high_mask_double : reg := set1 8 0xfffffffff8000000.

(** cmpunordps, cmpordps and the double forms *)
Definition cmpunord (w : nat) : reg -> reg -> reg := fcmp w (fun a b => is_nan a || is_nan b).
Definition cmpord (w : nat) : reg -> reg -> reg := fcmp w (fun a b => negb (is_nan a || is_nan b)).

(** * classification: sse/vectorhelper.h:178-189, 253-267 *)
Definition v_fabs (w : nat) (a : reg) : reg := mm_and a (abs_mask w).
Definition v_isnan (w : nat) (x : reg) : reg := cmpunord w x x.
Definition v_isfinite (w : nat) (x : reg) : reg := cmpord w x (v_fmul w mm_setzero x).
Definition v_isinf (sse41 : bool) (w : nat) (x : reg) : reg :=
  match w with
  | 4%nat => cmpeq_epi 4 (v_fabs 4 x) (exponent_mask 4)
  | _ => cmpeq_epi64 sse41 (v_fabs 8 x) (exponent_mask 8)
  end.
(** sse/vector.tcc:315-324 *)
Definition v_isnegative (w : nat) (x : reg) : reg :=
  match w with
  | 4%nat => srai_epi 4 (mm_and (sign_mask 4) x) 31
  | _ => mem_permute_ps 8 1 1 3 3 (srai_epi 4 (mm_and (sign_mask 8) x) 31)
  end.
(** sse/math.h:37-46 *)
Definition v_copysign (w : nat) (mag sign : reg) : reg := mm_or (mm_and sign (sign_mask w)) (mm_and mag (abs_mask w)).

(** * exponent: sse/vector.tcc:455-466 *)
Definition v_exponent (w : nat) (v : reg) : reg :=
  match w with
  | 4%nat => cvtepi32_ps (sub_epi 4 (srli_epi 4 v 23) (set1 4 0x7f))
  | _ => cvtepi32_pd (shuffle_epi32 8 (sub_epi 4 (srli_epi 8 v 52) (set1 4 0x3ff)) 8)
  end.

(** v == Zero(), and isnan(v) || !isfinite(v) || v == Zero() *)
Definition zero_lanes (w : nat) (v : reg) : reg := fcmp w feq v mm_setzero.
Definition special_lanes (w : nat) (v : reg) : reg := m_or (m_or (v_isnan w v) (m_not (v_isfinite w v))) (zero_lanes w v).
(** * frexp: sse/math.h:74-86; (result, *e) *)
Definition v_frexp_ps (sse41 : bool) (v : reg) : reg * reg :=
  let exponentBits := exponent_mask 4 in
  let exponentPart := mm_and v exponentBits in
  let e := sub_epi 4 (srli_epi 4 exponentPart 23) (set1 4 0x7e) in
  let exponentMaximized := mm_or v exponentBits in
  let ret := mm_and exponentMaximized (frexp_mask 4) in
  let ret := v_assign sse41 ret v (special_lanes 4 v) in
  (ret, v_set_zero e (zero_lanes 4 v)).
(** sse/math.h:56-73; (result, e[0], e[1]) *)
Definition v_frexp_pd (sse41 : bool) (v : reg) : reg * (word 4 * word 4) :=
  let exponentBits := exponent_mask 8 in
  let exponentPart := mm_and v exponentBits in
  let exponent := sub_epi 4 (srli_epi 8 exponentPart 52) (set1 4 0x3fe) in
  let exponentMaximized := mm_or v exponentBits in
  let ret := mm_and exponentMaximized (frexp_mask 8) in
  let zeroMask := zero_lanes 8 v in
  let ret := v_assign sse41 ret v (special_lanes 8 v) in
  let exponent := v_set_zero exponent zeroMask in
  (ret, (nth 0 (lanes 4 exponent) (w0 4), nth 2 (lanes 4 exponent) (w0 4))).
(** * ldexp: sse/math.h:100-107; 92-99 *)
Definition v_ldexp_ps (v e : reg) : reg :=
  let e := v_set_zero e (zero_lanes 4 v) in
  v_add Int v (v_shl Int e 23).
Definition v_ldexp_pd (v : reg) (e0 e1 : word 4) : reg :=
  let e := pack [e0; w0 4; e1; w0 4] in
  let e := v_set_zero e (zero_lanes 8 v) in
  let exponentBits := slli_epi 8 e 52 in
  add_epi 8 v exponentBits.

(** * trunc, floor, ceil: sse/math.h:109-160 *)
Definition trunc_ps_sse2 (x : reg) : reg :=
  let truncated := cvtepi32_ps (cvttps_epi32 x) in
  let no_fractional_values := cmplt_epi 4 (mm_and x (set1 4 0x7f800000)) (set1 4 0x4b000000) in
  mm_or (mm_andnot no_fractional_values x) (mm_and no_fractional_values truncated).
Definition trunc_pd_sse2 (x : reg) : reg :=
  let abs_x := v_fabs 8 x in
  let min_no_fractional_bits := set1 8 0x4330000000000000 in
  let truncated := v_fsub 8 (v_fadd 8 abs_x min_no_fractional_bits) min_no_fractional_bits in
  let truncated := v_fsub 8 truncated (mm_and (fcmp 8 flt abs_x truncated) (v_one 8)) in
  mm_or (mm_and (set1 8 0x8000000000000000) x) truncated.
Definition v_trunc (sse41 : bool) (w : nat) (x : reg) : reg :=
  if sse41 then mm_round w ToZero x else match w with 4%nat => trunc_ps_sse2 x | _ => trunc_pd_sse2 x end.
(** y(!(y == x) && x < 0) -= 1 *)
Definition v_floor (sse41 : bool) (w : nat) (x : reg) : reg :=
  if sse41 then mm_round w Down x
  else let y := v_trunc sse41 w x in
       v_assign sse41 y (v_fsub w y (set1_fp w 1)) (m_and (m_not (fcmp w feq y x)) (fcmp w flt x mm_setzero)).
(** y(!(y == x || x < 0)) += 1 *)
Definition v_ceil (sse41 : bool) (w : nat) (x : reg) : reg :=
  if sse41 then mm_round w Up x
  else let y := v_trunc sse41 w x in
       v_assign sse41 y (v_fadd w y (set1_fp w 1)) (m_not (m_or (fcmp w feq y x) (fcmp w flt x mm_setzero))).
(** _mm_cvtps_epi32, _mm_cvtpd_epi32 *)
Definition cvtps_epi32 (a : reg) : reg := lift1 4 (@cvt_int32 4 ToNearest) a.
Definition cvtpd_epi32 (a : reg) : reg := pack (map (@cvt_int32 8 ToNearest) (lanes 8 a) ++ [w0 4; w0 4]).
(** round: sse/vectorhelper.h:209-216, 291-298 *)
Definition v_round (sse41 : bool) (w : nat) (x : reg) : reg :=
  if sse41 then mm_round w ToNearest x
  else match w with 4%nat => cvtepi32_ps (cvtps_epi32 x) | _ => cvtepi32_pd (cvtpd_epi32 x) end.

(** * fma: sse/vectorhelper.h:237-247, 148-166 *)
Definition v_fma_ps (v1 v2 v3 : reg) : reg :=
  let v1_0 := cvtps_pd v1 in
  let v1_1 := cvtps_pd (movehl_ps 8 v1 v1) in
  let v2_0 := cvtps_pd v2 in
  let v2_1 := cvtps_pd (movehl_ps 8 v2 v2) in
  let v3_0 := cvtps_pd v3 in
  let v3_1 := cvtps_pd (movehl_ps 8 v3 v3) in
  movelh_ps (cvtpd_ps (v_fadd 8 (v_fmul 8 v1_0 v2_0) v3_0)) (cvtpd_ps (v_fadd 8 (v_fmul 8 v1_1 v2_1) v3_1)).
Definition v_fma_pd (sse41 : bool) (v1 v2 v3 : reg) : reg :=
  let h1 := mm_and v1 high_mask_double in
  let h2 := mm_and v2 high_mask_double in
  let l1 := v_fsub 8 v1 h1 in
  let l2 := v_fsub 8 v2 h2 in
  let ll := v_fmul 8 l1 l2 in
  let lh := v_fadd 8 (v_fmul 8 l1 h2) (v_fmul 8 h1 l2) in
  let hh := v_fmul 8 h1 h2 in
  let lh_lt_v3 := fcmp 8 flt (v_fabs 8 lh) (v_fabs 8 v3) in
  let b := blendv_epi8 sse41 v3 lh lh_lt_v3 in
  let c := blendv_epi8 sse41 lh v3 lh_lt_v3 in
  v_fadd 8 (v_fadd 8 ll b) (v_fadd 8 c hh).
(** the integer vectors: sse/vectorhelper.h:316, 405, 473, 569 *)
Definition v_fma_int (sse41 : bool) (e : etype) (v1 v2 v3 : reg) : reg := v_add e (v_mul sse41 e v1 v2) v3.

(** * scalar vectors: scalar/vector.tcc:121-134, 176-193 *)
Definition s_exponent (w : nat) (x : word w) : word w :=
  match w with
  | 4%nat => of_int w (sval x / 2 ^ 23 - 0x7f)
  | _ => of_int w (sval x / 2 ^ 52 - 0x3ff)
  end.
Definition s_isnegative (w : nat) (x : word w) : bool := negb (Z.land (uval x) (2 ^ (bits w - 1)) =? 0).

(** * Random()

    Common::RandomState is an array of 16 unsigned int.  [random_state] are its entries. *)
Definition random_state := list (word 4).
(** sse/vector.tcc:483-495 _doRandomStep: the values of state0 and state1 and the array afterwards *)
Definition random_step (sse41 : bool) (s : random_state) : reg * reg * random_state :=
  let state0 := pack (firstn 4 s) in
  let state1 := pack (firstn 4 (skipn 4 s)) in
  let s1' := v_add UInt (v_mul sse41 UInt state1 (set1 4 0xdeece66d)) (set1 4 11) in
  let s0' := mm_xor (v_add UInt (v_mul sse41 UInt state0 (set1 4 0xdeece66d)) (set1 4 11)) (srli_epi 4 state1 16) in
  (state0, state1, lanes 4 s0' ++ lanes 4 s1' ++ skipn 8 s).
(** 497-502: the integer vectors (the register of the uint_v is used as it is) *)
Definition random_int (sse41 : bool) (s : random_state) : reg * random_state :=
  let '(state0, _, s') := random_step sse41 s in (state0, s').
(** 504-509 *)
Definition random_ps (sse41 : bool) (s : random_state) : reg * random_state :=
  let '(state0, _, s') := random_step sse41 s in
  (v_fsub 4 (mm_or (srli_epi 4 state0 2) (v_one 4)) (v_one 4), s').
(** 511-520: entries 8 .. 11 as two 64-bit numbers (little endian) *)
Definition random_pd (s : random_state) : reg * random_state :=
  let state := pack (firstn 4 (skipn 8 s)) in
  let next := lift1 8 (fun x => mkw 8 (uval x * 0x5deece66d + 11)) state in
  (v_fsub 8 (mm_or (srli_epi 8 state 12) (v_one 8)) (v_one 8), firstn 8 s ++ lanes 4 next ++ skipn 12 s).
(** scalar/vector.tcc:137-163 (V::Size = 1: entries 0 and 1); 165-174 *)
Definition s_random_step (s : random_state) : word 4 * word 4 * random_state :=
  let state0 := nth 0 s (w0 4) in
  let state1 := nth 1 s (w0 4) in
  let s1' := wadd (wmul state1 (mkw 4 0xdeece66d)) (mkw 4 11) in
  let s0' := wxor (wadd (wmul state0 (mkw 4 0xdeece66d)) (mkw 4 11)) (mkw 4 (uval state1 / 2 ^ 16)) in
  (state0, state1, s0' :: s1' :: skipn 2 s).
Definition s_random_float (s : random_state) : word 4 * random_state :=
  let '(state0, _, s') := s_random_step s in
  (fsub (mkw 4 (Z.lor (Z.land (uval state0) 0x0fffffff) 0x3f800000)) (mkw 4 0x3f800000), s').
Definition s_random_double (s : random_state) : word 8 * random_state :=
  let state0 := nth 0 (lanes 8 (pack (firstn 4 (skipn 8 s)))) (w0 8) in
  let state0 := mkw 8 (Z.land ((uval state0 * 0x5deece66d + 11) mod 2 ^ 64) 0x000fffffffffffff) in
  (fsub (mkw 8 (Z.lor (uval state0) 0x3ff0000000000000)) (mkw 8 0x3ff0000000000000), firstn 8 s ++ firstn 2 (lanes 4 (pack [state0; w0 8])) ++ skipn 10 s).
