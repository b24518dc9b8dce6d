(** The shuffle helpers of Vc/avx/shuffle.h on registers of bytes.  The Mem:: functions that other parts
    of Vc/avx use are in AvxMove.v; here are the blends and the Reg:: functions, which take their
    positions in register order (highest first).

    Not modelled: Mem::permute<Dst0 .. Dst7>(__m256) (avx/shuffle.h:180-240), which cannot be
    instantiated (lines 202-204 and 223-225 pass integers as VecPos template arguments). *)
From Coq Require Import ZArith List Bool.
From Verif.Spec Require Import Seq.
From Verif.Model Require Import Word SseReg SseMove SseInt Shuffle AvxReg AvxMove.
Import ListNotations.

Definition yreg := ymm Z.
(** a 256-bit register seen as 32 / w words of w bytes *)
Definition ylanes (w : nat) (r : yreg) : list (word w) := of_ymm w dec r.
Definition ypack {w : nat} (xs : list (word w)) : yreg := to_ymm w enc xs.

(** avx/shuffle.h:42-65 Detail::blend with sixteen selectors (0 or 1); the mask is converted to uint8_t
    (59-63) *)
Fixpoint selector_bits (sels : list nat) : nat :=
  match sels with [] => 0 | s :: ss => s + 2 * selector_bits ss end.
Definition detail_blend16 (sels : list nat) (a b : yreg) : yreg :=
  yblend_epi16 8 a b (Nat.modulo (selector_bits sels) 256).
(** avx/shuffle.h:158-174 Mem::blend(__m256), 175-178 (__m256i) *)
Definition ymem_blend (d0 d1 d2 d3 d4 d5 d6 d7 : nat) (x y : yreg) : yreg :=
  yblend 8 4 x y (d0 / 8 * 1 + d1 / 9 * 2 + d2 / 10 * 4 + d3 / 11 * 8 +
                  d4 / 12 * 16 + d5 / 13 * 32 + d6 / 14 * 64 + d7 / 15 * 128).

(** avx/shuffle.h:254-274 *)
Definition yreg_permute128 (h l : nat) (x y : yreg) : yreg :=
  permute2f128 8 0%Z x y ((if Nat.ltb l 8 then l else l - 8 + 2) + (if Nat.ltb h 8 then h else h - 8 + 2) * 16).
(** avx/shuffle.h:275-279 *)
Definition yreg_permute_pd (d3 d2 d1 d0 : nat) (x : yreg) : yreg :=
  permute_pd256 8 x (d0 + d1 * 2 + (d2 - 2) * 4 + (d3 - 2) * 8).
(** avx/shuffle.h:280-284 *)
Definition yreg_permute_ps (d3 d2 d1 d0 : nat) (x : yreg) : yreg :=
  permute_ps256 8 x (d0 + d1 * 4 + d2 * 16 + d3 * 64).
(** avx/shuffle.h:285-289 (__m128d), 290-294 (__m128) *)
Definition reg_permute_pd (d1 d0 : nat) (x : reg) : reg := shuffle_pd 8 x x (d0 + d1 * 2).
Definition reg_permute_ps (d3 d2 d1 d0 : nat) (x : reg) : reg := shuffle_ps 8 x x (d0 + d1 * 4 + d2 * 16 + d3 * 64).
(** avx/shuffle.h:295-299 *)
Definition yreg_shuffle_pd (d3 d2 d1 d0 : nat) (x y : yreg) : yreg :=
  shuffle_pd256 8 x y (d0 + (d1 - 8) * 2 + (d2 - 2) * 4 + (d3 - 10) * 8).
(** avx/shuffle.h:300-304 *)
Definition yreg_shuffle_ps (d3 d2 d1 d0 : nat) (x y : yreg) : yreg :=
  shuffle_ps256 8 x y (d0 + d1 * 4 + (d2 - 8) * 16 + (d3 - 8) * 64).

(** avx/vector.tcc:898-914 float_v::operator[](IndexType): the permutation is ignored *)
Definition avx_v_permute (r : yreg) (perm : list Z) : yreg := r.
