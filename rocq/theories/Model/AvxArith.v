(** Operators and reductions of Vc::AVX2::Vector<T> on registers (avx/vector.tcc, avx/vector.h,
    avx/detail.h, avx/intrinsics.h, and the 128-bit horizontal functions of sse/detail.h they use).
    AVX builds have SSE4.1 and SSSE3.  Lanes of float and double are bit patterns; the IEEE operations
    are parameters where they occur. *)
From Coq Require Import ZArith List Bool.
From Verif.Spec Require Import Seq.
From Verif.Model Require Import Word Fp SseReg SseMove SortNet SseInt SimdArray SimdArrayOps ScalarVec SseBuild SseArith SseMask SseNative
  AvxReg AvxMove AvxBuild AvxShuffle AvxMask.
Import ListNotations.
Local Open Scope Z_scope.

(** * comparisons: avx/vector.tcc:41-78 *)

(** avx/intrinsics.h:331-338 cmpeq, cmpgt; 441-452 cmplt is cmpgt with swapped operands; 467-486 the
    unsigned ones flip the sign bits first *)
Definition y_cmpeq (e : etype) (a b : yreg) : yreg := ymap2 (cmpeq_epi (esize e)) a b.
Definition y_cmpgt (e : etype) (a b : yreg) : yreg :=
  match e with Short | Int => ymap2 (cmpgt_epi (esize e)) a b | _ => ymap2 (cmpgt_epu (esize e)) a b end.
Definition y_cmplt (e : etype) (a b : yreg) : yreg := y_cmpgt e b a.
Definition y_fcmp (e : etype) (rel : word (esize e) -> word (esize e) -> bool) (a b : yreg) : yreg := ymap2 (fcmp (esize e) rel) a b.
(** avx/detail.h:676-678 not_ *)
Definition y_not (a : yreg) : yreg := ym_not a.

(** Comparisons of float and double: avx/intrinsics.h:164-197.  With GCC ([gcc]) the vector operators of
    the compiler, otherwise the predicates EQ_OQ, NEQ_UQ, LT_OS, LE_OS, NLT_US (not less than) and NLE_US
    (not less or equal). *)
Definition y_eq (e : etype) (a b : yreg) : yreg := if is_integer e then y_cmpeq e a b else y_fcmp e feq a b.
Definition y_ne (e : etype) (a b : yreg) : yreg :=
  if is_integer e then y_not (y_cmpeq e a b) else y_fcmp e (fun x y => negb (feq x y)) a b.
Definition y_lt (e : etype) (a b : yreg) : yreg := if is_integer e then y_cmplt e a b else y_fcmp e flt a b.
Definition y_le (e : etype) (a b : yreg) : yreg := if is_integer e then y_not (y_cmpgt e a b) else y_fcmp e fle a b.
Definition y_gt (gcc : bool) (e : etype) (a b : yreg) : yreg :=
  if is_integer e then y_cmpgt e a b
  else y_fcmp e (fun x y => if gcc then flt y x else negb (fle x y)) a b.
Definition y_ge (gcc : bool) (e : etype) (a b : yreg) : yreg :=
  if is_integer e then y_not (y_cmplt e a b)
  else y_fcmp e (fun x y => if gcc then fle y x else negb (flt x y)) a b.

(** * arithmetic *)

(** avx/detail.h:607-622 negate; avx/const_data signMaskFloat *)
Definition y_neg (e : etype) (a : yreg) : yreg :=
  match e with
  | Float | Double => ymap1 (fun r => mm_xor r (set1 (esize e) (sign_weight (esize e)))) a
  | _ => ymap2 (mm_sign_epi (esize e)) a yallone
  end.
(** avx/detail.h:696-717 add, sub, mul of the integer types *)
Definition y_add (e : etype) (a b : yreg) : yreg := ymap2 (add_epi (esize e)) a b.
Definition y_sub (e : etype) (a b : yreg) : yreg := ymap2 (sub_epi (esize e)) a b.
Definition y_mul (e : etype) (a b : yreg) : yreg := ymap2 (mullo_epi (esize e)) a b.
(** avx/vector.h:312-316 ++ and --: with Detail::one(T()), avx/detail.h:597-604 *)
Definition y_set1 (w : nat) (z : Z) : yreg := Ymm (set1 w z) (set1 w z).
Definition y_increment (e : etype) (a : yreg) : yreg := y_add e a (y_set1 (esize e) 1).
Definition y_decrement (e : etype) (a : yreg) : yreg := y_sub e a (y_set1 (esize e) 1).
(** avx/detail.h:686-693 abs of the integer types *)
Definition y_abs (e : etype) (a : yreg) : yreg :=
  match e with Short | Int => ymap1 (mm_abs_epi (esize e)) a | _ => a end.
(** avx/math.h:39-51 min(x, y), max(x, y) *)
Definition y_min (e : etype) (a b : yreg) : yreg := ymap2 (v_min true e) a b.
Definition y_max (e : etype) (a b : yreg) : yreg := ymap2 (v_max true e) a b.

(** _mm_sll_epi*, _mm_srl_epi*, _mm_sra_epi*: the count is an unsigned number; too large counts give
    zero, or the sign *)
Definition sll_word {w} (c : Z) (x : word w) : word w := if bits w <=? c then w0 w else mkw w (uval x * 2 ^ c).
Definition srl_word {w} (c : Z) (x : word w) : word w := if bits w <=? c then w0 w else mkw w (uval x / 2 ^ c).
Definition sra_word {w} (c : Z) (x : word w) : word w := mkw w (sval x / 2 ^ (if bits w <=? c then bits w - 1 else c)).
(** avx/detail.h:896-914 shifts by an int; _mm_cvtsi32_si128 clears the upper 32 bits of the count *)
Definition y_shl (e : etype) (a : yreg) (k : Z) : yreg := ymap1 (lift1 (esize e) (sll_word (k mod 2 ^ 32))) a.
Definition y_shr (e : etype) (a : yreg) (k : Z) : yreg :=
  ymap1 (lift1 (esize e) (match e with Short | Int => sra_word (k mod 2 ^ 32) | _ => srl_word (k mod 2 ^ 32) end)) a.
(** avx/vector.tcc:338-345 shifts by a vector.  int, unsigned: _mm256_sllv_epi32, srav, srlv.  The 16-bit
    types: generate with the int shift of the promoted entries; None: a count outside 0..31.  Left
    shifts of negative numbers are the two's complement ones (GCC and Clang; before C++20 undefined). *)
Definition int_shift (ok : Z -> Z -> word 2) (val cnt : Z) : option (word 2) :=
  if (0 <=? cnt) && (cnt <? 32) then Some (ok val cnt) else None.
Fixpoint collect {A} (xs : list (option A)) : option (list A) :=
  match xs with
  | [] => Some []
  | x :: xs' => v <-- x; vs <-- collect xs'; Some (v :: vs)
  end.
Definition y_shlv (e : etype) (a x : yreg) : option yreg :=
  match e with
  | Int | UInt => Some (ymap2 (lift2 4 (fun v c => sll_word (uval c) v)) a x)
  | Short => option_map ypack (collect (map2 (fun v c : word 2 => int_shift (fun v c => mkw 2 (v * 2 ^ c)) (sval v) (sval c)) (ylanes 2 a) (ylanes 2 x)))
  | _ => option_map ypack (collect (map2 (fun v c : word 2 => int_shift (fun v c => mkw 2 (v * 2 ^ c)) (uval v) (uval c)) (ylanes 2 a) (ylanes 2 x)))
  end.
Definition y_shrv (e : etype) (a x : yreg) : option yreg :=
  match e with
  | Int => Some (ymap2 (lift2 4 (fun v c => sra_word (uval c) v)) a x)
  | UInt => Some (ymap2 (lift2 4 (fun v c => srl_word (uval c) v)) a x)
  | Short => option_map ypack (collect (map2 (fun v c : word 2 => int_shift (fun v c => mkw 2 (v / 2 ^ c)) (sval v) (sval c)) (ylanes 2 a) (ylanes 2 x)))
  | _ => option_map ypack (collect (map2 (fun v c : word 2 => int_shift (fun v c => mkw 2 (v / 2 ^ c)) (uval v) (uval c)) (ylanes 2 a) (ylanes 2 x)))
  end.

(** * reductions: avx/detail.h:761-782 combine the halves, then sse/detail.h:621-771 *)

(** sse/detail.h:630-642, 662-674 add, mul of the integer types *)
Definition h_srli (e : etype) (op : reg -> reg -> reg) (a : reg) : elt e :=
  let a := op a (mm_srli a 8) in
  let a := op a (mm_srli a 4) in
  let a := match e with Short | UShort => op a (mm_srli a 2) | _ => a end in
  first_lane e a.
Definition y_sum (e : etype) (a : yreg) : elt e := h_srli e (add_epi (esize e)) (add_epi (esize e) (lo128 a) (hi128 a)).
Definition y_product (e : etype) (a : yreg) : elt e := h_srli e (mullo_epi (esize e)) (mullo_epi (esize e) (lo128 a) (hi128 a)).
(** sse/detail.h:621-629, 653-661: sum and product of float and double for the lane operation [op] *)
Definition y_reduce_ps (op : word 4 -> word 4 -> word 4) (a : yreg) : word 4 := h_reduce_ps op (lift2 4 op (lo128 a) (hi128 a)).
Definition y_reduce_pd (op : word 8 -> word 8 -> word 8) (a : yreg) : word 8 := h_reduce_pd op (lift2 8 op (lo128 a) (hi128 a)).
(** min(), max(): sse/detail.h:684-714, 729-759 *)
Definition y_min_all (e : etype) (a : yreg) : elt e := v_min_all true e (v_min true e (lo128 a) (hi128 a)).
Definition y_max_all (e : etype) (a : yreg) : elt e := v_max_all true e (v_max true e (lo128 a) (hi128 a)).

(** * write masking *)

(** _mm256_blendv_ps, _mm256_blendv_pd: the sign of the lane selects *)
Definition mm_blendv_fp (w : nat) (a b c : reg) : reg :=
  pack (map3 (fun x y (m : word w) => if negative m then y else x) (lanes w a) (lanes w b) (lanes w c)).
(** avx/vector.h:389-391 assign, avx/detail.h:681-683 *)
Definition y_assign (e : etype) (a v k : yreg) : yreg :=
  let f := if is_integer e then mm_blendv_epi8 else mm_blendv_fp (esize e) in
  Ymm (f (lo128 a) (lo128 v) (lo128 k)) (f (hi128 a) (hi128 v) (hi128 k)).
(** avx/vector.tcc:287-294 *)
Definition y_set_zero (a k : yreg) : yreg := ymap2 mm_andnot k a.
Definition y_set_zero_inverted (a k : yreg) : yreg := ymap2 mm_and k a.
(** avx/vector.tcc:296-311 setQnan(mask) of float and double *)
Definition y_set_qnan (a k : yreg) : yreg := ymap2 mm_or a k.

(** std::numeric_limits<V>::max() / min(): avx/limits.h:77-82 (integer types).  float and double:
    Vc/limits:38-52, if the program includes <Vc/limits> ([limits]; <Vc/Vc> does not); otherwise the
    primary template of the standard library applies, which returns V(): all entries zero *)
Definition y_limit_max (limits : bool) (e : etype) : yreg :=
  if is_integer e || limits then Ymm (v_limit_max e) (v_limit_max e) else yzero.
Definition y_limit_min (limits : bool) (e : etype) : yreg :=
  if is_integer e || limits then Ymm (v_limit_min e) (v_limit_min e) else yzero.
(** avx/vector.tcc:601-624 min(mask), max(mask), product(mask), sum(mask) (the last two for integers) *)
Definition y_min_masked limits e (a k : yreg) : elt e := y_min_all e (y_assign e (y_limit_max limits e) a k).
Definition y_max_masked limits e (a k : yreg) : elt e := y_max_all e (y_assign e (y_limit_min limits e) a k).
Definition y_product_masked e (a k : yreg) : elt e := y_product e (y_assign e (y_set1 (esize e) 1) a k).
Definition y_sum_masked e (a k : yreg) : elt e := y_sum e (y_assign e yzero a k).

(** * minIndex, maxIndex *)

(** avx/vector.tcc:497-510.  The result is the vector with the minimum (maximum) in all entries, and the
    index of the first entry that equals it (None: firstOne of an empty mask is undefined) *)
Definition y_bcast (e : etype) (x : elt e) : yreg := ypack (repeat x (32 / esize e)).
Definition y_min_index (e : etype) (a : yreg) : yreg * option Z :=
  let x := y_bcast e (y_min_all e a) in (x, ym_first (esize e) (y_eq e a x)).
Definition y_max_index (e : etype) (a : yreg) : yreg * option Z :=
  let x := y_bcast e (y_max_all e a) in (x, ym_first (esize e) (y_eq e a x)).
(** avx/vector.tcc:511-566 float_v::minIndex().  IndexesFromZero of float_v: 0.0f .. 7.0f *)
Definition float_indexes : yreg :=
  ypack (map (mkw 4) [0; 0x3f800000; 0x40000000; 0x40400000; 0x40800000; 0x40a00000; 0x40c00000; 0x40e00000]).
Definition y_blendv_ps (a b c : yreg) : yreg := y_assign Float a b c.
Definition y_float_min_index (v : yreg) : yreg * Z :=
  let step (move : yreg -> yreg) (p : yreg * yreg) :=
    let x := fst p in let idx := snd p in
    let y := move x in let idy := move idx in
    let less := y_fcmp Float flt x y in
    (y_blendv_ps y x less, y_blendv_ps idy idx less) in
  let p := step (ymem_permute128 8 0 1 0) (v, float_indexes) in
  let p := step (yreg_permute_ps 2 3 0 1) p in
  let p := step (yreg_permute_ps 1 0 3 2) p in
  (fst p, sval (first_lane Int (lo128 (snd p)))).

(** * The native reductions and write-masked operations of an AVX build: vectors with 32 / sizeof(T)
    entries use the code above, the others the one of SseNative.v (see AvxBuild.v for which exist) *)
Definition full_or {X A} (w : nat) (xs : list A) (v s : X) : X := if Nat.eqb (length xs) (32 / w) then v else s.
Definition avx_min (e : etype) (xs : list (elt e)) : elt e := full_or (esize e) xs (y_min_all e (ypack xs)) (sse_min true e xs).
Definition avx_max (e : etype) (xs : list (elt e)) : elt e := full_or (esize e) xs (y_max_all e (ypack xs)) (sse_max true e xs).
Definition avx_sum (e : etype) (xs : list (elt e)) : elt e := full_or (esize e) xs (y_sum e (ypack xs)) (sse_sum e xs).
Definition avx_product (e : etype) (xs : list (elt e)) : elt e := full_or (esize e) xs (y_product e (ypack xs)) (sse_product true e xs).

(** SSE::float_v and SSE::double_v in AVX builds: Vc/limits:38 only specialises numeric_limits for
    Vc::Vector<T>, the AVX vectors; sse/vector.tcc:426-437 then starts from V() *)
Definition v_min_masked_default e (a k : reg) : elt e := v_min_all true e (v_assign true mm_setzero a k).
Definition v_max_masked_default e (a k : reg) : elt e := v_max_all true e (v_assign true mm_setzero a k).
Definition avx_min_masked (limits : bool) (e : etype) (xs : list (elt e)) (m : list bool) : elt e :=
  full_or (esize e) xs (y_min_masked limits e (ypack xs) (ymask_reg (esize e) m))
    (if is_integer e then sse_min_masked true e xs m
     else one_or xs (scalar_minmax_masked (w0 _) xs m) (v_min_masked_default e (pack xs) (mask_reg (esize e) m))).
Definition avx_max_masked (limits : bool) (e : etype) (xs : list (elt e)) (m : list bool) : elt e :=
  full_or (esize e) xs (y_max_masked limits e (ypack xs) (ymask_reg (esize e) m))
    (if is_integer e then sse_max_masked true e xs m
     else one_or xs (scalar_minmax_masked (w0 _) xs m) (v_max_masked_default e (pack xs) (mask_reg (esize e) m))).
Definition avx_sum_masked (e : etype) (xs : list (elt e)) (m : list bool) : elt e :=
  full_or (esize e) xs (y_sum_masked e (ypack xs) (ymask_reg (esize e) m)) (sse_sum_masked true e xs m).
Definition avx_product_masked (e : etype) (xs : list (elt e)) (m : list bool) : elt e :=
  full_or (esize e) xs (y_product_masked e (ypack xs) (ymask_reg (esize e) m)) (sse_product_masked true e xs m).
Definition avx_assign (e : etype) (xs vs : list (elt e)) (m : list bool) : list (elt e) :=
  full_or (esize e) xs (ylanes (esize e) (y_assign e (ypack xs) (ypack vs) (ymask_reg (esize e) m))) (sse_assign true e xs vs m).
Definition avx_zero_inverted (e : etype) (xs : list (elt e)) (m : list bool) : list (elt e) :=
  full_or (esize e) xs (ylanes (esize e) (y_set_zero_inverted (ypack xs) (ymask_reg (esize e) m))) (sse_zero_inverted e xs m).
