(** Data movement functions of the AVX vector classes (Vc/avx/vector.tcc, detail.h, shuffle.h,
    casts.h).  [w] is sizeof(EntryType), so Size is 32 / w. *)
From Coq Require Import ZArith List Bool.
From Verif.Spec Require Import Seq.
From Verif.Model Require Import SseReg SseMove SimdArray ScalarVec AvxReg.
Import ListNotations.

Section Permute.
  Variable u : nat.   (* units per 64 bits *)
  Context {B : Type} (b0 : B).

  (** sse/shuffle.h:36-39 VecPos, continued *)
  Definition X2 : nat := 2.
  Definition X4 : nat := 4.
  Definition Y2 : nat := 10.
  Definition Const0 : nat := 16.

  (** avx/shuffle.h:71-75 Mem::permuteLo(__m256i), 77-81 permuteHi: the same permutation of the low
      (high) four entries of each half *)
  Definition ymem_permuteLo (d0 d1 d2 d3 : nat) (x : ymm B) : ymm B :=
    shufflelo256 u x (d0 + d1 * 4 + d2 * 16 + d3 * 64).
  Definition ymem_permuteHi (d0 d1 d2 d3 : nat) (x : ymm B) : ymm B :=
    shufflehi256 u x ((d0 - X4) + (d1 - X4) * 4 + (d2 - X4) * 16 + (d3 - X4) * 64).

  (** avx/shuffle.h:84-106 Mem::permute128<L, H>: X0, X1 or Const0 for each half *)
  Definition ymem_permute128 (l h : nat) (x : ymm B) : ymm B :=
    permute2f128 u b0 x x ((if Nat.eqb l Const0 then 8 else l) + (if Nat.eqb h Const0 then 128 else h * 16)).
  (** avx/shuffle.h:107-127 Mem::shuffle128<L, H>: X0, X1, Y0 or Y1 for each half *)
  Definition ymem_shuffle128 (l h : nat) (x y : ymm B) : ymm B :=
    permute2f128 u b0 x y ((if Nat.ltb l Y0 then l else l - Y0 + 2) + (if Nat.ltb h Y0 then h else h - Y0 + 2) * 16).
  (** avx/shuffle.h:128-132 Mem::permute(__m256d) *)
  Definition ymem_permute_pd (d0 d1 d2 d3 : nat) (x : ymm B) : ymm B :=
    permute_pd256 u x (d0 + d1 * 2 + (d2 - X2) * 4 + (d3 - X2) * 8).
  (** avx/shuffle.h:133-140 Mem::permute<D0..D3>(__m256), (__m256i): the same for both halves *)
  Definition ymem_permute_ps (d0 d1 d2 d3 : nat) (x : ymm B) : ymm B :=
    permute_ps256 u x (d0 + d1 * 4 + d2 * 16 + d3 * 64).
  (** avx/shuffle.h:142-146 Mem::permute4x64 *)
  Definition ymem_permute4x64 (d0 d1 d2 d3 : nat) (x : ymm B) : ymm B :=
    permute4x64 u x (d0 + d1 * 4 + d2 * 16 + d3 * 64).
  (** avx/shuffle.h:148-152 Mem::shuffle(__m256d) *)
  Definition ymem_shuffle_pd (d0 d1 d2 d3 : nat) (x y : ymm B) : ymm B :=
    shuffle_pd256 u x y (d0 + (d1 - Y0) * 2 + (d2 - X2) * 4 + (d3 - Y2) * 8).
  (** avx/shuffle.h:153-157 Mem::shuffle(__m256): the same for both halves *)
  Definition ymem_shuffle_ps (d0 d1 d2 d3 : nat) (x y : ymm B) : ymm B :=
    shuffle_ps256 u x y (d0 + d1 * 4 + (d2 - Y0) * 16 + (d3 - Y0) * 64).
End Permute.

Section Move.
  Context {B : Type} (b0 : B) (bor : B -> B -> B).
  Local Notation srli_si128 := (srli_si128 8 b0).
  Local Notation slli_si128 := (slli_si128 8 b0).
  Local Notation mm_alignr := (mm_alignr_epi8 8 b0).

  (** The upper half of the result of _mm256_castps128_ps256 (and _si128_si256, _pd128_pd256), which
      the instruction set reference leaves undefined. *)
  Variable undef : list B.

  (** avx/casts.h:62-76 avx_cast from 128 to 256 bits *)
  Definition cast256 (v : list B) : ymm B := Ymm v undef.
  (** avx/casts.h:79-87 zeroExtend: with GCC (the second variant) it is the cast; the first variant
      (MSVC, Clang) clears the upper half, which is the case [undef] = zero *)
  Definition zeroExtend (v : list B) : ymm B := cast256 v.

  Local Open Scope Z_scope.

  (** avx/detail.h:452-479 Detail::shifted<amount>(__m256i); [amount] is in bytes and not 0 *)
  Definition avx_shift_bytes (amount : Z) (k : ymm B) : ymm B :=
    if 16 <=? amount then zeroExtend (srli_si128 (hi128 k) (Z.to_nat (amount - 16)))
    else if 0 <? amount then yalignr 8 b0 (ymem_permute128 8 b0 1 Const0 k) k (Z.to_nat amount)
    else if amount <=? -16 then ymem_permute128 8 b0 Const0 0 (cast256 (slli_si128 (lo128 k) (Z.to_nat (-16 - amount))))
    else yalignr 8 b0 k (ymem_permute128 8 b0 Const0 0 k) (Z.to_nat (16 + amount)).

  (** avx/detail.h:947-1030 Detail::shifted(V, int); the cases written as ranges *)
  Definition avx_shifted (w : nat) (r : ymm B) (amount : Z) : ymm B :=
    let last := match w with 8%nat => 3 | 4%nat => 7 | _ => 15 end in
    if amount =? 0 then r
    else if (- last <=? amount) && (amount <=? last) then avx_shift_bytes (amount * Z.of_nat w) r
    else ysetzero 8 b0.

  (** avx/vector.tcc:737-794 shifted(int, Vector), with 731-735 shifted_shortcut.  [constant] tells
      whether the compiler knows the amount (__builtin_constant_p): only then lines 741-787 are used. *)
  Definition avx_or (a b : ymm B) : ymm B := ymap2 (or_si128 bor) a b.
  Definition avx_shifted_in (constant : bool) (w : nat) (r : ymm B) (amount : Z) (shiftIn : ymm B) : ymm B :=
    let size := Z.of_nat (32 / w) in
    let generic := avx_or (avx_shifted w r amount)
                          (if 0 <? amount then avx_shifted w shiftIn (amount - size) else avx_shifted w shiftIn (size + amount)) in
    if constant then
      if amount * 2 =? size then ymem_shuffle128 8 b0 1 8 r shiftIn
      else if amount * 2 =? - size then ymem_shuffle128 8 b0 1 8 shiftIn r
      else if (amount =? 1) || (amount =? 2) || ((amount =? 3) && (6 <? size)) then
        yalignr 8 b0 (permute2f128 8 b0 r shiftIn 33) r (Z.to_nat amount * w)%nat
      else generic
    else generic.

  (** avx/detail.h:1061-1080 rotated<T, 4>, 1083-1114 <T, 8>, 1118-1171 <T, 16>; the cases written as
      ranges.  The amount is converted to unsigned int. *)
  Definition avx_rotated (w : nat) (r : ymm B) (amount : Z) : ymm B :=
    let n := (32 / w)%nat in
    let k := Z.to_nat ((amount mod 2 ^ 32) mod Z.of_nat n) in
    let vLo := lo128 r in
    let vHi := hi128 r in
    if Nat.eqb k 0 then r
    else if Nat.eqb n 16 && Nat.eqb k 4 then ymem_permute4x64 8 1 2 3 0 r
    else if Nat.eqb n 16 && Nat.eqb k 12 then ymem_permute4x64 8 3 0 1 2 r
    else if Nat.ltb k (n / 2)%nat then Ymm (mm_alignr vHi vLo (k * w)%nat) (mm_alignr vLo vHi (k * w)%nat)
    else if Nat.eqb k (n / 2)%nat then ymem_permute128 8 b0 1 0 r
    else Ymm (mm_alignr vLo vHi ((k - n / 2) * w)%nat) (mm_alignr vHi vLo ((k - n / 2) * w)%nat).

  (** avx/vector.tcc:862-896 reversed(): double (w = 8), float, int, uint (4), short and ushort (2) *)
  Definition avx_reversed (w : nat) (r : ymm B) : ymm B :=
    match w with
    | 8%nat => ymem_permute128 8 b0 1 0 (ymem_permute_pd 8 1 0 3 2 r)
    | 4%nat => ymem_permute128 8 b0 1 0 (ymem_permute_ps 8 3 2 1 0 r)
    | _ => ymem_permute128 8 b0 1 0
             (ymem_shuffle_pd 8 1 8 3 10 (ymem_permuteHi 8 7 6 5 4 r) (ymem_permuteLo 8 3 2 1 0 r))
    end.

  (** avx/vector.tcc:807-859 interleaveLow / interleaveHigh *)
  Definition avx_interleave_low (w : nat) (r x : ymm B) : ymm B :=
    ymem_shuffle128 8 b0 0 8 (yunpacklo 8 w r x) (yunpackhi 8 w r x).
  Definition avx_interleave_high (w : nat) (r x : ymm B) : ymm B :=
    ymem_shuffle128 8 b0 1 9 (yunpacklo 8 w r x) (yunpackhi 8 w r x).

  (** avx/vector.tcc:924-929 float_v::broadcast<Index>() *)
  Definition avx_broadcast_float (index : nat) (r : ymm B) : ymm B :=
    let inner := Nat.modulo index 4 in
    let outer := Nat.div (Nat.modulo index 8) 4 in
    ymem_permute_ps 8 inner inner inner inner (ymem_permute128 8 b0 outer outer r).
End Move.

(** Native vectors of a build with AVX2: 32 / w entries (Vc/avx), 16 / w entries (Vc/sse) and 1
    (Vc/scalar). *)
Definition avx_native (w : nat) (n : nat) : bool := sse_native w n || Nat.eqb n (32 / w).

Section Vec.
  Context {B A : Type} (b0 : B) (bor : B -> B -> B) (undef : list B)
          (w : nat) (enc : A -> list B) (dec : list B -> A) (zero : A).
  Variable add : A -> A -> A.
  Variables (sort128 sort256 : list A -> list A).

  (** the entries of a 256-bit register *)
  Definition to_ymm (xs : list A) : ymm B := Ymm (to_reg enc (firstn (16 / w) xs)) (to_reg enc (skipn (16 / w) xs)).
  Definition of_ymm (r : ymm B) : list A := of_reg w dec (lo128 r) ++ of_reg w dec (hi128 r).

  (** avx/vector.tcc:567-580 partialSum() *)
  Definition avx_partial_sum (xs : list A) : list A :=
    let step k ys := if Nat.ltb k (32 / w)
                     then map2 add ys (of_ymm (avx_shifted b0 undef w (to_ymm ys) (- Z.of_nat k))) else ys in
    step 16%nat (step 8%nat (step 4%nat (step 2%nat (step 1%nat xs)))).

  Definition avx_ops (constant : bool) : native_ops A :=
    let full {X} (xs : list A) (v s : X) := if Nat.eqb (length xs) (32 / w) then v else s in
    let sse := sse_ops b0 bor w enc dec zero add sort128 true in {|
    n_shifted := fun xs k => full xs (of_ymm (avx_shifted b0 undef w (to_ymm xs) k)) (n_shifted sse xs k);
    n_shifted_in := fun xs k s => full xs (of_ymm (avx_shifted_in b0 bor undef constant w (to_ymm xs) k (to_ymm s)))
        (n_shifted_in sse xs k s);
    n_rotated := fun xs k => full xs (of_ymm (avx_rotated b0 w (to_ymm xs) k)) (n_rotated sse xs k);
    n_reversed := fun xs => full xs (of_ymm (avx_reversed b0 w (to_ymm xs))) (n_reversed sse xs);
    n_interleave_low := fun xs ys => full xs (of_ymm (avx_interleave_low b0 w (to_ymm xs) (to_ymm ys))) (n_interleave_low sse xs ys);
    n_interleave_high := fun xs ys => full xs (of_ymm (avx_interleave_high b0 w (to_ymm xs) (to_ymm ys))) (n_interleave_high sse xs ys);
    n_sorted := fun xs => full xs (sort256 xs) (n_sorted sse xs);
    n_partial_sum := fun xs => full xs (avx_partial_sum xs) (n_partial_sum sse xs)
  |}.
End Vec.
