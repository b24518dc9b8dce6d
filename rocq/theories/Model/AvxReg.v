(** AVX registers and the data movement intrinsics used by Vc/avx.

    A 256-bit register is the pair of its 128-bit halves, each the list of its units as in SseReg.v.
    Almost every AVX / AVX2 instruction is the SSE instruction on both halves; the functions of this
    file are the meaning of the intrinsics (Intel Intrinsics Guide) and part of the trusted base.
    Without AVX2 the integer functions are written in Vc as the SSE function on the two halves
    (avx/intrinsics.h:205-373, the Vc_AVX_TO_SSE macros), which is the same function. *)
From Coq Require Import ZArith List Bool.
From Verif.Spec Require Import Seq.
From Verif.Model Require Import SseReg.
Import ListNotations.

Record ymm (B : Type) := Ymm { lo128 : list B; hi128 : list B }.
Arguments Ymm {B}.
Arguments lo128 {B}.
Arguments hi128 {B}.

Section Reg.
  Variable u : nat.   (* units per 64 bits, see SseReg.v *)
  Context {B : Type} (b0 : B).

  (** all 4 * u units, lowest address first *)
  Definition units (x : ymm B) : list B := lo128 x ++ hi128 x.
  Definition ysetzero : ymm B := Ymm (setzero u b0) (setzero u b0).

  (** an instruction that works on both halves separately *)
  Definition ymap1 (f : list B -> list B) (x : ymm B) : ymm B := Ymm (f (lo128 x)) (f (hi128 x)).
  Definition ymap2 (f : list B -> list B -> list B) (x y : ymm B) : ymm B :=
    Ymm (f (lo128 x) (lo128 y)) (f (hi128 x) (hi128 y)).

  (** _mm256_permute2f128_{ps,pd,si256}, _mm256_permute2x128_si256: each half of the result is
      selected by four bits of the immediate *)
  Definition half_sel (x y : ymm B) (c : nat) : list B :=
    if Nat.odd (c / 8) then setzero u b0
    else match Nat.modulo c 4 with
         | 0 => lo128 x | 1 => hi128 x | 2 => lo128 y | _ => hi128 y
         end.
  Definition permute2f128 (x y : ymm B) (imm : nat) : ymm B :=
    Ymm (half_sel x y (Nat.modulo imm 16)) (half_sel x y (Nat.modulo (imm / 16) 16)).

  (** _mm256_permute_pd, _mm256_shuffle_pd: one bit per lane *)
  Definition permute_pd256 (x : ymm B) (imm : nat) : ymm B :=
    Ymm (shuffle_pd u (lo128 x) (lo128 x) imm) (shuffle_pd u (hi128 x) (hi128 x) (imm / 4)).
  Definition shuffle_pd256 (x y : ymm B) (imm : nat) : ymm B :=
    Ymm (shuffle_pd u (lo128 x) (lo128 y) imm) (shuffle_pd u (hi128 x) (hi128 y) (imm / 4)).
  (** _mm256_permute_ps, _mm256_shuffle_epi32, _mm256_shuffle_ps: the same immediate for both halves *)
  Definition permute_ps256 (x : ymm B) (imm : nat) : ymm B := ymap1 (fun r => shuffle_ps u r r imm) x.
  Definition shuffle_ps256 (x y : ymm B) (imm : nat) : ymm B := ymap2 (fun a b => shuffle_ps u a b imm) x y.
  (** _mm256_shufflelo_epi16, _mm256_shufflehi_epi16 *)
  Definition shufflelo256 (x : ymm B) (imm : nat) : ymm B := ymap1 (fun r => shufflelo_epi16 u r imm) x.
  Definition shufflehi256 (x : ymm B) (imm : nat) : ymm B := ymap1 (fun r => shufflehi_epi16 u r imm) x.
  (** _mm256_permute4x64_{epi64,pd}: four 64-bit lanes from anywhere *)
  Definition permute4x64 (x : ymm B) (imm : nat) : ymm B :=
    let q j := lane u (units x) (imm2 imm j) in Ymm (q 0 ++ q 1) (q 2 ++ q 3).
  (** _mm256_unpack{lo,hi}_*, _mm256_alignr_epi8: per half *)
  Definition yunpacklo (w : nat) : ymm B -> ymm B -> ymm B := ymap2 (unpacklo u w).
  Definition yunpackhi (w : nat) : ymm B -> ymm B -> ymm B := ymap2 (unpackhi u w).
  Definition yalignr (x y : ymm B) (k : nat) : ymm B := ymap2 (fun a b => mm_alignr_epi8 u b0 a b k) x y.
  (** _mm256_blend_ps (w = u / 2, 8 bits of the immediate), _mm256_blend_pd (w = u, 4 bits): one bit
      per lane *)
  Definition yblend (w : nat) (x y : ymm B) (imm : nat) : ymm B :=
    Ymm (blend u w (lo128 x) (lo128 y) imm)
        (blend u w (hi128 x) (hi128 y) (imm / Nat.pow 2 (2 * u / w))).
  (** _mm256_blend_epi16: the 8 bits of the immediate are used for both halves *)
  Definition yblend_epi16 (x y : ymm B) (imm : nat) : ymm B :=
    ymap2 (fun a b => blend u (u / 4) a b (Nat.modulo imm 256)) x y.
End Reg.
