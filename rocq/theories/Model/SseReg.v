(** SSE registers and the data movement intrinsics used by Vc/sse and Vc/avx.

    A 128-bit register is the list of its units, lowest address first (the memory order of
    _mm_storeu_si128).  A unit is a byte in most of the model; the sorting networks use the vector
    entries as units.  [u] is the number of units in 64 bits: 8 for bytes, 4 / 2 / 1 for entries of
    16 / 32 / 64 bits.  The functions of this file are the meaning of the x86 intrinsics, taken from
    the Intel Intrinsics Guide; they are part of the trusted base.  The unit type [B] is arbitrary:
    [b0] is the zero unit and [bor] the bitwise or of units. *)
From Coq Require Import ZArith List Bool.
From Verif.Spec Require Import Seq.
Import ListNotations.

(** The [n] lanes of [w] units of a register. *)
Fixpoint chunks {B} (w n : nat) (r : list B) : list (list B) :=
  match n with
  | O => []
  | S n' => firstn w r :: chunks w n' (skipn w r)
  end.

(** lane [i] of [w] units *)
Definition lane {B} (w : nat) (r : list B) (i : nat) : list B := firstn w (skipn (w * i) r).

Section Reg.
  Variable u : nat.
  Context {B : Type} (b0 : B) (bor : B -> B -> B).

  Definition setzero : list B := repeat b0 (2 * u).
  (** _mm_srli_si128 (_mm_bsrli_si128): shift right by [k] bytes; [k] > 15 gives zero.  The number
      of bytes must be a multiple of the unit. *)
  Definition srli_si128 (r : list B) (k : nat) : list B :=
    if Nat.ltb 15 k then setzero else skipn (k * u / 8) r ++ repeat b0 (k * u / 8).
  Definition slli_si128 (r : list B) (k : nat) : list B :=
    if Nat.ltb 15 k then setzero else repeat b0 (k * u / 8) ++ firstn (2 * u - k * u / 8) r.
  Definition or_si128 (a b : list B) : list B := map2 bor a b.

  (** _mm_alignr_epi8(a, b, k): bytes k.. of b followed by a *)
  Definition mm_alignr_epi8 (a b : list B) (k : nat) : list B :=
    firstn (2 * u) (skipn (k * u / 8) (b ++ a ++ repeat b0 (4 * u))).

  (** _mm_unpacklo_* / _mm_unpackhi_* for lanes of [w] units *)
  Definition unpacklo (w : nat) (a b : list B) : list B :=
    flat_map (fun i => lane w a i ++ lane w b i) (seq 0 (u / w)).
  Definition unpackhi (w : nat) (a b : list B) : list B :=
    flat_map (fun i => lane w a i ++ lane w b i) (seq (u / w) (u / w)).

  (** the two-bit field [j] of an immediate *)
  Definition imm2 (imm j : nat) : nat := Nat.modulo (imm / Nat.pow 4 j) 4.
  (** _mm_shuffle_epi32 *)
  Definition shuffle_epi32 (r : list B) (imm : nat) : list B :=
    flat_map (fun j => lane (u / 2) r (imm2 imm j)) [0; 1; 2; 3].
  (** _mm_shuffle_ps: two lanes from [a], two from [b] *)
  Definition shuffle_ps (a b : list B) (imm : nat) : list B :=
    lane (u / 2) a (imm2 imm 0) ++ lane (u / 2) a (imm2 imm 1) ++ lane (u / 2) b (imm2 imm 2) ++ lane (u / 2) b (imm2 imm 3).
  (** _mm_shuffle_pd: the immediate has two bits *)
  Definition shuffle_pd (a b : list B) (imm : nat) : list B :=
    lane u a (Nat.modulo imm 2) ++ lane u b (Nat.modulo (imm / 2) 2).
  (** _mm_shufflelo_epi16, _mm_shufflehi_epi16 *)
  Definition shufflelo_epi16 (r : list B) (imm : nat) : list B :=
    flat_map (fun j => lane (u / 4) r (imm2 imm j)) [0; 1; 2; 3] ++ skipn u r.
  Definition shufflehi_epi16 (r : list B) (imm : nat) : list B :=
    firstn u r ++ flat_map (fun j => lane (u / 4) r (4 + imm2 imm j)) [0; 1; 2; 3].

  (** _mm_blend_epi16 / _mm_blend_ps / _mm_blend_pd (lanes of [w] units): lane i of [b] where bit i
      of the immediate is set, lane i of [a] otherwise *)
  Definition blend (w : nat) (a b : list B) (imm : nat) : list B :=
    flat_map (fun i => lane w (if Nat.odd (imm / Nat.pow 2 i) then b else a) i) (seq 0 (2 * u / w)).

  (** _mm_movehl_ps(a, b): high half of b, high half of a *)
  Definition movehl_ps (a b : list B) : list B := skipn u b ++ skipn u a.
End Reg.
