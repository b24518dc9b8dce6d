(** Vc::AVX2::Mask<T> (avx/mask.h, avx/mask.tcc, the mask functions of avx/detail.h).  [w] is
    sizeof(VectorEntryType), so Size = 32 / w.  A set entry has all bits of its lane set.  Masks of
    float and double exist with AVX, those of the integer types with AVX2. *)
From Coq Require Import ZArith List Bool.
From Verif.Spec Require Import Seq.
From Verif.Model Require Import Word Fp SseReg SseMove SortNet SseInt SimdArray SimdArrayOps ScalarVec SseBuild SseMask AvxReg AvxMove AvxShuffle.
Import ListNotations.
Local Open Scope Z_scope.

(** * instructions *)

(** _mm256_movemask_epi8 (w = 1), _mm256_movemask_ps (4), _mm256_movemask_pd (8); avx/detail.h:1188-1197.
    The 32 bits of the first are kept as an unsigned number. *)
Definition ymovemask (w : nat) (r : yreg) : Z := bits_to_int (map negative (ylanes w r)).
(** _mm256_testz_*, _mm256_testc_*, _mm256_testnzc_*: the ps (w = 4) and pd (w = 8) variants look at the
    sign bits of the lanes, si256 at all bits.  testz: a & b is zero; testc: ~a & b is zero;
    testnzc: neither *)
Definition ytestz (w : nat) (a b : yreg) : bool :=
  match w with
  | 2%nat => is_zero (mm_and (lo128 a) (lo128 b)) && is_zero (mm_and (hi128 a) (hi128 b))
  | _ => forallb negb (map2 (fun x y => negative x && negative y) (ylanes w a) (ylanes w b))
  end.
Definition ytestc (w : nat) (a b : yreg) : bool :=
  match w with
  | 2%nat => is_zero (mm_andnot (lo128 a) (lo128 b)) && is_zero (mm_andnot (hi128 a) (hi128 b))
  | _ => forallb negb (map2 (fun x y => negb (negative x) && negative y) (ylanes w a) (ylanes w b))
  end.
Definition ytestnzc (w : nat) (a b : yreg) : bool := negb (ytestz w a b) && negb (ytestc w a b).
(** _pext_u32: the bits of [src] at the set bits of [mask], moved to the low end *)
Fixpoint pext (n : nat) (src mask : Z) : Z :=
  match n with
  | O => 0
  | S n' => if Z.odd mask then Z.b2z (Z.odd src) + 2 * pext n' (src / 2) (mask / 2) else pext n' (src / 2) (mask / 2)
  end.
Definition pext_u32 (src mask : Z) : Z := pext 32 src mask.

(** Detail::allone, zero *)
Definition yallone : yreg := Ymm setallone setallone.
Definition yzero : yreg := Ymm mm_setzero mm_setzero.

(** * queries *)

(** avx/detail.h:1307-1326 mask_to_int; the variant for 16 entries is only defined in builds with BMI2 *)
Definition ym_to_int (w : nat) (k : yreg) : Z :=
  match w with
  | 8%nat => ymovemask 8 k
  | 4%nat => ymovemask 4 k
  | _ => pext_u32 (ymovemask 1 k) 0x55555555
  end.
(** avx/mask.h:179 *)
Definition ym_shift_mask (k : yreg) : Z := ymovemask 1 k.
(** avx/mask.h:146-150, avx/mask.tcc:62-69.  The movemask of the storage type: float 4, double 8, the
    integer types 1 *)
Definition ym_eq (e : etype) (a b : yreg) : bool :=
  match e with
  | Double => ymovemask 8 a =? ymovemask 8 b
  | Float => ymovemask 4 a =? ymovemask 4 b
  | _ => ymovemask 1 a =? ymovemask 1 b
  end.
Definition ym_neq (e : etype) (a b : yreg) : bool := negb (ym_eq e a b).
(** avx/mask.tcc:72-110 *)
Definition ym_full (w : nat) (k : yreg) : bool := ytestc w k yallone.
Definition ym_not_empty (w : nat) (k : yreg) : bool := negb (ytestz w k k).
Definition ym_empty (w : nat) (k : yreg) : bool := ytestz w k k.
Definition ym_mix (w : nat) (k : yreg) : bool := ytestnzc w k yallone.
(** avx/mask.h:216 *)
Definition ym_count (hw : bool) (w : nat) (k : yreg) : Z := popcnt16 hw (ym_to_int w k).
(** avx/mask.h:217; bsf leaves the result undefined for 0 *)
Definition ym_first (w : nat) (k : yreg) : option Z :=
  let mask := ym_to_int w k in if mask =? 0 then None else Some (ctz 32 mask).
(** avx/mask.h:189-192, avx/mask.tcc:47-59 *)
Definition ym_get (w : nat) (k : yreg) (i : Z) : bool :=
  match w with
  | 2%nat => negb (Z.land (ym_shift_mask k) (Z.shiftl 1 (2 * i)) =? 0)
  | _ => negb (Z.land (ym_to_int w k) (Z.shiftl 1 i) =? 0)
  end.

(** * construction *)

(** avx/mask.h:194-198 *)
Definition ym_set (w : nat) (k : yreg) (i : Z) (v : bool) : yreg :=
  ypack (list_set (ylanes w k) (Z.to_nat i) (wmask w v)).
(** avx/mask.tcc:113-146 *)
Definition ym_generate (w : nat) (gen : Z -> bool) : yreg := ypack (tab (32 / w) (fun i => wmask w (gen i))).
(** avx/mask.h:109-112 *)
Definition ym_broadcast (b : bool) : yreg := if b then yallone else yzero.
(** avx/mask.h:152-170: ~ is the bitwise complement, the variant of line 157 computes the same *)
Definition ym_not (k : yreg) : yreg := ymap2 mm_andnot k yallone.
Definition ym_and : yreg -> yreg -> yreg := ymap2 mm_and.
Definition ym_or : yreg -> yreg -> yreg := ymap2 mm_or.
Definition ym_xor : yreg -> yreg -> yreg := ymap2 mm_xor.
(** avx/mask.tcc:148-216; None: int overflow.  [undef]: see AvxMove.v *)
Definition ym_shifted (undef : list Z) (w : nat) (k : yreg) (amount : Z) : option yreg :=
  let n := amount * Z.of_nat w in
  if (n <? - 2 ^ 31) || (2 ^ 31 <=? n) then None
  else if n =? 0 then Some k
  else if (-31 <=? n) && (n <=? 31) then Some (avx_shift_bytes 0 undef n k) else Some yzero.

(** * memory *)

(** avx/detail.h:1201-1235 mask_store: the bytes written *)
Definition ym_store (w : nat) (k : yreg) : list Z :=
  match w with
  | 8%nat => bytes 4 (Z.land (Z.lor (movemask 1 (lo128 k)) (Z.shiftl (movemask 1 (hi128 k)) 16)) 0x01010101)
  | 4%nat => low_bytes 8 (packs_epi16 (srli_epi 2 (packs_epi16 (lo128 k) (hi128 k)) 15) mm_setzero)
  | _ => mm_and (set1 1 1) (packs_epi16 (lo128 k) (hi128 k))
  end.
(** avx/detail.h:1266-1304 mask_load<__m256> from the bytes of [32 / w] bools *)
Definition ym_load (w : nat) (bs : list Z) : yreg :=
  match w with
  | 8%nat =>
      let k := mm_and (bs ++ bs ++ bs ++ bs) (pack (map (mkw 4) [0x1; 0x100; 0x10000; 0x1000000])) in
      let k := cmpgt_epi 4 k mm_setzero in
      Ymm (unpacklo 8 4 k k) (unpackhi 8 4 k k)
  | 4%nat =>
      let k := bs ++ repeat 0 8 in
      let k := cmpgt_epi 2 (unpacklo 8 1 k k) mm_setzero in
      Ymm (unpacklo 8 2 k k) (unpackhi 8 2 k k)
  | _ =>
      let k := cmpgt_epi 1 bs mm_setzero in
      Ymm (unpacklo 8 1 k k) (unpackhi 8 1 k k)
  end.

(** * conversions between mask types: avx/detail.h:481-584 *)

(** mask_cast<From, To, __m256>(__m256i) *)
Definition ymask_cast (undef : list Z) (from to : nat) (k : yreg) : option yreg :=
  let narrow8 := packs_epi16 (packs_epi32 (lo128 k) (hi128 k)) mm_setzero in
  match from, to with
  | 4%nat, 8%nat => Some (Ymm (packs_epi32 (lo128 k) (hi128 k)) mm_setzero)
  | 4%nat, 16%nat => Some (zeroExtend undef narrow8)
  | 8%nat, 4%nat => Some (Ymm (unpacklo 8 4 (lo128 k) (lo128 k)) (unpackhi 8 4 (lo128 k) (lo128 k)))
  | 8%nat, 16%nat => Some (zeroExtend undef (packs_epi16 (lo128 k) (hi128 k)))
  | 16%nat, 8%nat => let flipped := ymem_permute4x64 8 0 2 1 3 k in Some (yunpacklo 8 2 flipped flipped)
  | 16%nat, 4%nat => let tmp := unpacklo 8 2 (lo128 k) (lo128 k) in Some (Ymm (unpacklo 8 4 tmp tmp) (unpackhi 8 4 tmp tmp))
  | _, _ => if Nat.eqb from to then Some k else None
  end.
(** mask_cast<From, To, __m128>(__m256i): an AVX mask to an SSE mask *)
Definition ymask_cast_128 (from to : nat) (k : yreg) : option reg :=
  match from, to with
  | 4%nat, 4%nat => Some (packs_epi32 (lo128 k) (hi128 k))
  | 4%nat, 8%nat => Some (packs_epi16 (packs_epi32 (lo128 k) (hi128 k)) mm_setzero)
  | 8%nat, 4%nat => Some (lo128 k)
  | 8%nat, 8%nat => Some (packs_epi16 (lo128 k) (hi128 k))
  | _, _ => None
  end.
(** mask_cast<From, To, __m256>(__m128i): an SSE mask to an AVX mask *)
Definition mask_cast_256 (undef : list Z) (from to : nat) (k : reg) : option yreg :=
  match from, to with
  | 4%nat, 4%nat => Some (Ymm (unpacklo 8 4 k k) (unpackhi 8 4 k k))
  | 4%nat, 8%nat => Some (zeroExtend undef k)
  | 8%nat, 4%nat => let tmp := unpacklo 8 2 k k in Some (Ymm (unpacklo 8 4 tmp tmp) (unpackhi 8 4 tmp tmp))
  | 8%nat, 8%nat => Some (Ymm (unpacklo 8 2 k k) (unpackhi 8 2 k k))
  | _, _ => None
  end.

(** * The native masks of an AVX build: 32 / w entries (this file), 16 / w entries (SseMask.v) and one *)
Definition ymask_reg (w : nat) (m : list bool) : yreg := ypack (map (wmask w) m).
Definition avx_mask_ops (ptest hw : bool) (e : etype) : native_mask_ops :=
  let w := esize e in
  let full {X} (m : list bool) (v s : X) := if Nat.eqb (length m) (32 / w) then v else s in
  let sse := sse_mask_ops ptest hw w in {|
  k_full := fun m => full m (ym_full w (ymask_reg w m)) (k_full sse m);
  k_not_empty := fun m => full m (ym_not_empty w (ymask_reg w m)) (k_not_empty sse m);
  k_empty := fun m => full m (ym_empty w (ymask_reg w m)) (k_empty sse m);
  k_to_int := fun m => full m (ym_to_int w (ymask_reg w m)) (k_to_int sse m);
  k_count := fun m => full m (ym_count hw w (ymask_reg w m)) (k_count sse m);
  k_first := fun m => full m (match ym_first w (ymask_reg w m) with Some i => i | None => 0 end) (k_first sse m);
  k_eq := fun a b => full a (ym_eq e (ymask_reg w a) (ymask_reg w b)) (k_eq sse a b);
  k_neq := fun a b => full a (ym_neq e (ymask_reg w a) (ymask_reg w b)) (k_neq sse a b)
|}.
