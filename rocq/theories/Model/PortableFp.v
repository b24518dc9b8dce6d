(** The calls of Program.v in the Scalar, SSE and AVX implementations, for T = float and double (Portable.v has the integer
    types, and the calls that are the same for all types).

    Simplifications: every floating-point operation is computed in the format of T and rounded to nearest (no extended
    precision, no contraction to fma, no flush-to-zero), a NaN result is the first NaN operand made quiet; the bitwise
    operators are left out (None). *)
From Coq Require Import ZArith List Bool.
From Verif.Spec Require Import Seq CastSpec.
From Verif.Model Require Import SplitSize Word Fp FpArith SseReg SseMove SortNet SseInt SseBuild SseArith SseMask SseNative SimdArray SimdArrayOps Mem
  AvxReg AvxMove AvxBuild AvxShuffle AvxMask AvxArith ScalarVec MaskedDiv ScalarMath SseMath AvxMath Roots Program Portable.
Import ListNotations.
Local Open Scope Z_scope.

(** * Leaves *)

(** Scalar vectors, scalar/operators.h:71-90 (+ - * /), scalar/math.h:63-71 (std::min(a, b) is b < a ? b : a, std::max(a, b)
    is a < b ? b : a) *)
Definition s_farith {w} (op : arith_op) (a b : word w) : option (word w) :=
  match op with
  | OAdd => Some (fadd a b) | OSub => Some (fsub a b) | OMul => Some (fmul a b) | ODiv => Some (fdiv a b)
  | OMin => Some (if flt b a then b else a) | OMax => Some (if flt a b then b else a)
  | OMod | OAnd | OOr | OXor => None
  end.
(** scalar/operators.h:37-45: the C++ operators *)
Definition s_fcompare {w} (op : cmp_op) (a b : word w) : bool :=
  match op with OEq => feq a b | ONe => negb (feq a b) | OLt => flt a b | OLe => fle a b | OGt => flt b a | OGe => fle b a end.

(** SSE vectors: sse/detail.h:527-528, 537-538, 547-548, 587-588 (addps, subps, mulps, divps and the pd forms),
    sse/vector.h:434-445 min, max *)
Definition v_farith (e : etype) (op : arith_op) (x y : reg) : option reg :=
  match op with
  | OAdd => Some (lift2 (esize e) fadd x y) | OSub => Some (lift2 (esize e) fsub x y)
  | OMul => Some (lift2 (esize e) fmul x y) | ODiv => Some (lift2 (esize e) fdiv x y)
  | OMin => Some (v_min true e x y) | OMax => Some (v_max true e x y)
  | OMod | OAnd | OOr | OXor => None
  end.
(** AVX vectors: avx/detail.h:696-697, 704-705, 712-713, 720-721, avx/math.h:48-51 *)
Definition y_farith (e : etype) (op : arith_op) (x y : yreg) : option yreg :=
  match op with
  | OAdd => Some (ymap2 (lift2 (esize e) fadd) x y) | OSub => Some (ymap2 (lift2 (esize e) fsub) x y)
  | OMul => Some (ymap2 (lift2 (esize e) fmul) x y) | ODiv => Some (ymap2 (lift2 (esize e) fdiv) x y)
  | OMin => Some (y_min e x y) | OMax => Some (y_max e x y)
  | OMod | OAnd | OOr | OXor => None
  end.
Definition leaf_farith (b : build) (e : etype) (op : arith_op) (xs ys : list (elt e)) : option (list (elt e)) :=
  by_width b e (length xs) (sequence (map2 (s_farith op) xs ys))
    (option_map (lanes (esize e)) (v_farith e op (pack xs) (pack ys)))
    (option_map (ylanes (esize e)) (y_farith e op (ypack xs) (ypack ys))) None.
(** scalar/vector.h:189-192 (the C++ operator), sse/detail.h:476-483, avx/detail.h:608-615 (xor with the sign bit) *)
Definition leaf_fnegate (b : build) (e : etype) (xs : list (elt e)) : option (list (elt e)) :=
  by_width b e (length xs) (Some (map fneg xs))
    (Some (lanes (esize e) (v_neg (b_has_ssse3 b) e (pack xs)))) (Some (ylanes (esize e) (y_neg e (ypack xs)))) None.
(** abs and sqrt: scalar/math.h:75-91, sse/vector.h:443-455, avx/math.h:53-60, 82-89 (the functions modelled in ScalarMath.v,
    SseMath.v, AvxMath.v and Roots.v).  ~ does not exist for float and double. *)
Definition leaf_funary (b : build) (e : etype) (op : un_op) (xs : list (elt e)) : option (list (elt e)) :=
  let w := esize e in
  match op with
  | UAbs => by_width b e (length xs) (Some (map s_fabs xs)) (Some (lanes w (v_fabs w (pack xs)))) (Some (ylanes w (y_fabs w (ypack xs)))) None
  | USqrt => by_width b e (length xs) (Some (map s_sqrt xs)) (Some (lanes w (v_sqrt w (pack xs)))) (Some (ylanes w (y_sqrt w (ypack xs)))) None
  | UCompl => None
  end.
(** copysign: scalar/math.h:36-58, sse/math.h:36-47, avx/math.h:138-149; isfinite, isinf, isnan: scalar/math.h:217-246,
    sse/vector.h:458-460, avx/math.h:101-136 (the functions modelled in ScalarMath.v, SseMath.v and AvxMath.v, where isnegative is
    cited too), for each part of an array: simdarray.h:1811, 1823-1826 *)
Definition leaf_fcopysign (b : build) (e : etype) (xs ys : list (elt e)) : option (list (elt e)) :=
  let w := esize e in
  by_width b e (length xs) (Some (map2 (s_copysign w) xs ys)) (Some (lanes w (v_copysign w (pack xs) (pack ys))))
    (Some (ylanes w (y_copysign w (ypack xs) (ypack ys)))) None.
Definition s_ftest (w : nat) (op : test_op) : word w -> bool :=
  match op with TNan => s_isnan | TInf => s_isinf | TFinite => s_isfinite | TNegative => s_isnegative w end.
Definition v_ftest (sse41 : bool) (w : nat) (op : test_op) : reg -> reg :=
  match op with TNan => v_isnan w | TInf => v_isinf sse41 w | TFinite => v_isfinite w | TNegative => v_isnegative w end.
Definition y_ftest (w : nat) (op : test_op) : yreg -> yreg :=
  match op with TNan => y_isnan w | TInf => y_isinf w | TFinite => y_isfinite w | TNegative => y_isnegative w end.
Definition leaf_ftest (b : build) (e : etype) (op : test_op) (xs : list (elt e)) : option (list bool) :=
  let w := esize e in
  by_width b e (length xs) (Some (map (s_ftest w op) xs)) (Some (m_entries e (v_ftest (b_sse41 b) w op (pack xs))))
    (Some (ym_entries e (y_ftest w op (ypack xs)))) None.
(** sse/vector.tcc and avx/vector.tcc compare operators: [v_compare], [y_compare] of Portable.v *)
Definition leaf_fcompare (b : build) (e : etype) (op : cmp_op) (xs ys : list (elt e)) : option (list bool) :=
  by_width b e (length xs) (Some (map2 (s_fcompare op) xs ys))
    (Some (m_entries e (v_compare e op (pack xs) (pack ys))))
    (Some (ym_entries e (y_compare (b_gcc b) e op (ypack xs) (ypack ys)))) None.

(** min(), max(), sum(), product() of the native vectors: scalar/vector.h:229-232; sse/vectorhelper.h:164-191, 252-285;
    sse/detail.h:621-629, 653-661, 684-689, 729-734 (AVX) *)
Definition v_freduce (e : etype) : red_op -> reg -> elt e :=
  match e as e return red_op -> reg -> elt e with
  | Float => fun op r => match op with RSum => h_add_ps fadd r | RProduct => h_add_ps fmul r | RMin => v_min_all true Float r | RMax => v_max_all true Float r end
  | Double => fun op r => match op with RSum => h_add_pd fadd r | RProduct => h_add_pd fmul r | RMin => v_min_all true Double r | RMax => v_max_all true Double r end
  | _ => fun _ _ => w0 _
  end.
Definition y_freduce (e : etype) : red_op -> yreg -> elt e :=
  match e as e return red_op -> yreg -> elt e with
  | Float => fun op r => match op with RSum => y_reduce_ps fadd r | RProduct => y_reduce_ps fmul r | RMin => y_min_all Float r | RMax => y_max_all Float r end
  | Double => fun op r => match op with RSum => y_reduce_pd fadd r | RProduct => y_reduce_pd fmul r | RMin => y_min_all Double r | RMax => y_max_all Double r end
  | _ => fun _ _ => w0 _
  end.
Definition leaf_freduce (b : build) (e : etype) (op : red_op) (xs : list (elt e)) : option (elt e) :=
  by_width b e (length xs) (hd_error xs) (Some (v_freduce e op (pack xs))) (Some (y_freduce e op (ypack xs))) None.

(** * Arrays *)

(** simdarray.h:1064-1102 name(): equal halves are combined by the operation of the vectors, other halves are reduced and
    their results combined by the operation of the entries *)
Definition red_arith (op : red_op) : arith_op := match op with RMin => OMin | RMax => OMax | RSum => OAdd | RProduct => OMul end.
Fixpoint freduce_f (b : build) (e : etype) (op : red_op) (fuel : nat) (t : sa (elt e)) : option (elt e) :=
  match fuel with
  | O => None
  | S fuel' =>
    match t with
    | Leaf xs => leaf_freduce b e op xs
    | Node d0 d1 =>
        if Nat.eqb (size d0) (size d1) then z <-- op2o (leaf_farith b e (red_arith op)) d0 d1; freduce_f b e op fuel' z
        else x <-- freduce_f b e op fuel' d0; y <-- freduce_f b e op fuel' d1; s_farith (red_arith op) x y
    end
  end.
Definition b_freduce (b : build) (e : etype) (op : red_op) (t : sa (elt e)) : option (elt e) := freduce_f b e op (size t) t.

(** simdarray.h:1361-1394 (composite) and 470-473 (atomic) sorted(): as [sorted_f] of SimdArray.v, Vc::min and Vc::max being those
    of the vectors of each width (std::min and std::max for vectors of one entry) *)
Fixpoint fsorted_f (b : build) (e : etype) (fuel : nat) (t : sa (elt e)) : option (sa (elt e)) :=
  match fuel with
  | O => None
  | S fuel' =>
    match t with
    | Leaf xs => Some (Leaf (n_sorted (b_moves b e) xs))
    | Node data0 data1 =>
        if Nat.eqb (size data0) (size data1) then
          a <-- fsorted_f b e fuel' data0;
          sb <-- fsorted_f b e fuel' data1;
          r <-- reversed (b_native b e) (b_moves b e) (w0 _) sb;
          lo <-- op2o (leaf_farith b e OMin) a r;
          hi <-- op2o (leaf_farith b e OMax) a r;
          slo <-- fsorted_f b e fuel' lo;
          shi <-- fsorted_f b e fuel' hi;
          Some (Node slo shi)
        else
          let n := size t in
          let sortable := generate (b_native b e) (next_pow2 n) (fun i => if i <? Z.of_nat n then znth (w0 _) (to_list t) i else e_top e) in
          s <-- fsorted_f b e fuel' sortable;
          Some (cast (b_native b e) (w0 _) n s)
    end
  end.
Definition b_fsorted (b : build) (e : etype) (t : sa (elt e)) : option (sa (elt e)) := fsorted_f b e (4 * size t + 2) t.

(** partialSum(): simdarray.h:1104-1110, 424-427, sse/vector.tcc:401-414, avx/vector.tcc:567-580, scalar/vector.h:233, the
    functions of SimdArray.v, SseMove.v and AvxMove.v with the addition of floats or doubles *)
Definition b_fmoves (b : build) (e : etype) : native_ops (elt e) :=
  match b_impl b with
  | DScalar => scalar_ops (w0 _)
  | DSse _ => sse_build (b_ssse3 b) e fadd
  | DAvx avx2 _ => avx_build avx2 (b_constant b) e fadd
  end.
Definition b_fpartial_sum (b : build) (e : etype) (t : sa (elt e)) : option (sa (elt e)) := partial_sum (b_fmoves b e) (w0 _) fadd t.

(** sum(mask): scalar/vector.h:244, sse/vector.tcc:444-449, avx/vector.tcc:619-624 (the sum of a vector of zeros to which the selected
    entries are assigned), simdarray.h:1086-1096. *)
Definition leaf_fsum_mask (b : build) (e : etype) (xs : list (elt e)) (m : list bool) : elt e :=
  by_width b e (length xs) (scalar_sumprod_masked (w0 _) (w0 _) xs m)
    (v_freduce e RSum (v_assign (b_sse41 b) mm_setzero (pack xs) (mask_reg (esize e) m)))
    (y_freduce e RSum (y_assign e yzero (ypack xs) (ymask_reg (esize e) m))) (w0 _).
(** Vector(One): sse/vector.tcc:179-182, sse/vectorhelper.h:141, 229, sse/intrinsics.h:86-87, src/const.cpp:283-287;
    avx/vector.tcc:237-238, avx/intrinsics.h:118-119, src/const.cpp:169-176 *)
Definition v_fone (e : etype) : reg := pack (repeat (of_int (esize e) 1) (16 / esize e)).
Definition y_fone (e : etype) : yreg := ypack (repeat (of_int (esize e) 1) (32 / esize e)).
(** product(mask): scalar/vector.h:236-243, sse/vector.tcc:438-443, avx/vector.tcc:613-618 (the product of a vector of ones to which the
    selected entries are assigned) *)
Definition leaf_fproduct_mask (b : build) (e : etype) (xs : list (elt e)) (m : list bool) : elt e :=
  by_width b e (length xs) (scalar_sumprod_masked (w0 _) (of_int _ 1) xs m)
    (v_freduce e RProduct (v_assign (b_sse41 b) (v_fone e) (pack xs) (mask_reg (esize e) m)))
    (y_freduce e RProduct (y_assign e (y_fone e) (ypack xs) (ymask_reg (esize e) m))) (w0 _).
(** simdarray.h:1086-1096; min(mask) and max(mask) are left out (None) *)
Definition b_freduce_mask (b : build) (e : etype) (op : red_op) (t : sa (elt e)) (k : sa bool) : option (elt e) :=
  match op with
  | RSum => reduce_masked (b_masks b e) (leaf_fsum_mask b e) fadd t k
  | RProduct => reduce_masked (b_masks b e) (leaf_fproduct_mask b e) fmul t k
  | _ => None
  end.

(** SimdArray<T, n> in a build *)
Definition fp_implementation (b : build) (e : etype) (n : nat) : vops (elt e) (sa (elt e)) (sa bool) :=
  let i := implementation b e n in {|
  o_generate := o_generate i;
  o_arith := fun op => op2o (leaf_farith b e op);
  o_negate := op1o (leaf_fnegate b e);
  o_unary := fun op => op1o (leaf_funary b e op);
  o_copysign := op2o (leaf_fcopysign b e);
  o_test := fun op => op1o (leaf_ftest b e op);
  o_shift := fun _ _ _ => None;
  o_compare := fun op => op2o (leaf_fcompare b e op);
  o_logic := o_logic i;
  o_not := o_not i;
  o_assign := o_assign i;
  o_move := fun op t => match op with MSort => b_fsorted b e t | MPartialSum => b_fpartial_sum b e t | _ => o_move i op t end;
  o_shift_in := o_shift_in i;
  o_interleave := o_interleave i;
  o_reduce := b_freduce b e;
  o_reduce_mask := b_freduce_mask b e;
  o_get := o_get i;
  o_set := o_set i;
  o_load := o_load i;
  o_store := o_store i;
  o_full := o_full i;
  o_not_empty := o_not_empty i;
  o_count := o_count i;
  o_mask_get := o_mask_get i;
  o_gather := o_gather i;
  o_scatter := o_scatter i
|}.
