(** Data movement functions of the SSE vector classes (Vc/sse/vector.tcc, shuffle.h,
    intrinsics.h).  [w] is sizeof(EntryType), so Size is 16 / w. *)
From Coq Require Import ZArith List Bool.
From Verif.Spec Require Import Seq.
From Verif.Model Require Import SseReg SimdArray ScalarVec.
Import ListNotations.

Section Permute.
  Variable u : nat.   (* units per 64 bits, see SseReg.v *)
  Context {B : Type}.

  (** sse/shuffle.h:36-39 VecPos: X0..X7 = 0..7, Y0..Y7 = 8..15, Const0 = 16. *)
  Definition Y0 : nat := 8.

  (** sse/shuffle.h:45-49 Mem::shuffle(__m128), 60-64 (__m128i). *)
  Definition mem_shuffle4 (d0 d1 d2 d3 : nat) (x y : list B) : list B :=
    shuffle_ps u x y (d0 + d1 * 4 + (d2 - Y0) * 16 + (d3 - Y0) * 64).
  (** sse/shuffle.h:52-56. *)
  Definition mem_shuffle2 (d0 d1 : nat) (x y : list B) : list B :=
    shuffle_pd u x y (d0 + (d1 - Y0) * 2).
  (** sse/shuffle.h:100-104. *)
  Definition mem_permute_ps (d0 d1 d2 d3 : nat) (x : list B) : list B :=
    shuffle_ps u x x (d0 + d1 * 4 + d2 * 16 + d3 * 64).
  (** sse/shuffle.h:106-110.  The factor 4 is in the source. *)
  Definition mem_permute_pd (d0 d1 : nat) (x : list B) : list B := shuffle_pd u x x (d0 + d1 * 4).
  (** sse/shuffle.h:112-116. *)
  Definition mem_permute_epi32 (d0 d1 d2 d3 : nat) (x : list B) : list B :=
    shuffle_epi32 u x (d0 + d1 * 4 + d2 * 16 + d3 * 64).
  (** sse/shuffle.h:118-128. *)
  Definition mem_permuteLo (d0 d1 d2 d3 : nat) (x : list B) : list B :=
    shufflelo_epi16 u x (d0 + d1 * 4 + d2 * 16 + d3 * 64).
  Definition mem_permuteHi (d0 d1 d2 d3 : nat) (x : list B) : list B :=
    shufflehi_epi16 u x ((d0 - 4) + (d1 - 4) * 4 + (d2 - 4) * 16 + (d3 - 4) * 64).
  (** sse/shuffle.h:130-143. *)
  Definition mem_permute8 (d0 d1 d2 d3 d4 d5 d6 d7 : nat) (x : list B) : list B :=
    let x1 := if negb (Nat.eqb d0 0 && Nat.eqb d1 1 && Nat.eqb d2 2 && Nat.eqb d3 3)
              then shufflelo_epi16 u x (d0 + d1 * 4 + d2 * 16 + d3 * 64) else x in
    if negb (Nat.eqb d4 4 && Nat.eqb d5 5 && Nat.eqb d6 6 && Nat.eqb d7 7)
    then shufflehi_epi16 u x1 ((d4 - 4) + (d5 - 4) * 4 + (d6 - 4) * 16 + (d7 - 4) * 64) else x1.

  (** sse/shuffle.h:74-81, 83-97 Mem::blend with the blend instructions of SSE4.1 (used by the sorting
      networks, which run on vector entries as units); all builds are in Shuffle.v. *)
  Definition mem_blend4 (d0 d1 d2 d3 : nat) (x y : list B) : list B :=
    blend u (u / 2) x y (d0 / 8 * 1 + d1 / 9 * 2 + d2 / 10 * 4 + d3 / 11 * 8).
  Definition mem_blend8 (d0 d1 d2 d3 d4 d5 d6 d7 : nat) (x y : list B) : list B :=
    blend u (u / 4) x y (d0 / 8 * 1 + d1 / 9 * 2 + d2 / 10 * 4 + d3 / 11 * 8 +
                         d4 / 12 * 16 + d5 / 13 * 32 + d6 / 14 * 64 + d7 / 15 * 128).
End Permute.

Section Move.
  Context {B : Type} (b0 : B) (bor : B -> B -> B).
  Local Notation srli_si128 := (srli_si128 8).
  Local Notation slli_si128 := (slli_si128 8).
  Local Notation setzero := (setzero 8).

  (** sse/intrinsics.h:204-241 (SSE2) and 169-172 (SSSE3) alignr_epi8<s>(a, b).  The 32 cases of the
      SSE2 switch are written as ranges. *)
  Definition alignr_epi8 (ssse3 : bool) (s : nat) (a b : list B) : list B :=
    let s' := Nat.modulo s 32 in
    if ssse3 then mm_alignr_epi8 8 b0 a b s'
    else if Nat.eqb s' 0 then b
    else if Nat.ltb s' 16 then or_si128 bor (slli_si128 b0 a (16 - s')) (srli_si128 b0 b s')
    else if Nat.eqb s' 16 then a
    else srli_si128 b0 a (s' - 16).

  Local Open Scope Z_scope.

  (** sse/vector.tcc:522-547 shifted(int); the 17 cases written as ranges. *)
  Definition sse_shifted (w : nat) (r : list B) (amount : Z) : list B :=
    if amount =? 0 then r
    else if (0 <? amount) && (amount <=? 8) then srli_si128 b0 r (Z.to_nat amount * w)
    else if (-8 <=? amount) && (amount <? 0) then slli_si128 b0 r (Z.to_nat (- amount) * w)
    else setzero b0.

  (** sse/vector.tcc:548-592 shifted(int, Vector); the 31 cases written as ranges. *)
  Definition sse_shifted_in (ssse3 : bool) (w : nat) (r : list B) (amount : Z) (shiftIn : list B) : list B :=
    let size := Z.of_nat (16 / w) in
    if (- size <=? amount) && (-15 <=? amount) && (amount <=? 15) then
      if amount =? 0 then r
      else if amount <? 0 then alignr_epi8 ssse3 (Z.to_nat (size + amount) * w) r shiftIn
      else alignr_epi8 ssse3 (Z.to_nat amount * w) shiftIn r
    else sse_shifted w shiftIn (size + amount).

  (** sse/vector.tcc:593-613 rotated(int); the amount is converted to unsigned int. *)
  Definition sse_rotated (ssse3 : bool) (w : nat) (r : list B) (amount : Z) : list B :=
    let k := (amount mod 2 ^ 32) mod Z.of_nat (16 / w) in
    if k =? 0 then r
    else if k <=? 7 then alignr_epi8 ssse3 (Z.to_nat k * w) r r
    else setzero b0.

  (** sse/vector.tcc:701-728 reversed(): double (w = 8), float (4; int and uint use
      _mm_shuffle_epi32, see [sse_reversed_epi32]) and short (2). *)
  Definition sse_reversed (w : nat) (r : list B) : list B :=
    match w with
    | 8%nat => mem_permute_pd 8 1 0 r
    | 4%nat => mem_permute_ps 8 3 2 1 0 r
    | _ => mem_shuffle2 8 1 (Y0 + 0) (mem_permuteHi 8 7 6 5 4 r) (mem_permuteLo 8 3 2 1 0 r)
    end.
  Definition sse_reversed_epi32 (r : list B) : list B := mem_permute_epi32 8 3 2 1 0 r.

  (** sse/vector.tcc:631-642 interleaveLow / interleaveHigh. *)
  Definition sse_interleave_low (w : nat) (r x : list B) : list B := unpacklo 8 w r x.
  Definition sse_interleave_high (w : nat) (r x : list B) : list B := unpackhi 8 w r x.

  (** sse/vector.tcc:754-763 broadcast<Index>(). *)
  Definition sse_broadcast_float (index : nat) (r : list B) : list B :=
    let i := Nat.modulo index 4 in mem_permute_ps 8 i i i i r.
  Definition sse_broadcast_double (index : nat) (r : list B) : list B :=
    let i := Nat.modulo index 2 in mem_permute_pd 8 i i r.
End Move.

(** Native vectors of a build with SSE: element type [A] stored in [w] bytes, [enc] its memory
    representation.  Native widths are 16 / w and 1. *)
Definition sse_native (w : nat) (n : nat) : bool := Nat.eqb n 1 || Nat.eqb n (16 / w).

Section Vec.
  Context {B A : Type} (b0 : B) (bor : B -> B -> B) (w : nat) (enc : A -> list B) (dec : list B -> A) (zero : A).
  Variable add : A -> A -> A.
  Variable sort : list A -> list A.

  Definition to_reg (xs : list A) : list B := concat (map enc xs).
  Definition of_reg (r : list B) : list A := map dec (chunks w (16 / w) r).

  (** sse/vector.tcc:401-414 partialSum(). *)
  Definition sse_partial_sum (xs : list A) : list A :=
    let step k ys := if Nat.ltb k (16 / w)
                     then map2 add ys (of_reg (sse_shifted b0 w (to_reg ys) (- Z.of_nat k))) else ys in
    step 8%nat (step 4%nat (step 2%nat (step 1%nat xs))).

  Definition sse_ops (ssse3 : bool) : native_ops A :=
    let single {X} (xs : list A) (s v : X) := if Nat.eqb (length xs) 1 then s else v in
    let sc := scalar_ops zero in {|
    n_shifted := fun xs k => single xs (n_shifted sc xs k) (of_reg (sse_shifted b0 w (to_reg xs) k));
    n_shifted_in := fun xs k s => single xs (n_shifted_in sc xs k s)
        (of_reg (sse_shifted_in b0 bor ssse3 w (to_reg xs) k (to_reg s)));
    n_rotated := fun xs k => single xs (n_rotated sc xs k) (of_reg (sse_rotated b0 bor ssse3 w (to_reg xs) k));
    n_reversed := fun xs => single xs (n_reversed sc xs) (of_reg (sse_reversed w (to_reg xs)));
    n_interleave_low := fun xs ys => single xs (n_interleave_low sc xs ys) (of_reg (sse_interleave_low w (to_reg xs) (to_reg ys)));
    n_interleave_high := fun xs ys => single xs (n_interleave_high sc xs ys) (of_reg (sse_interleave_high w (to_reg xs) (to_reg ys)));
    n_sorted := fun xs => single xs xs (sort xs);
    n_partial_sum := fun xs => single xs xs (sse_partial_sum xs)
  |}.
End Vec.
