(** The calls of Program.v in the Scalar, SSE and AVX implementations, for T = short, unsigned short, int, unsigned int.

    A SimdArray<T, N> is a tree of native vectors (SimdArray.v); an operator applies the operator of the native vectors to the
    leaves (simdarray.h:949-1008, 1586-1625, 1694-1705).  A leaf with one entry is a Scalar vector, one with 16 / sizeof(T)
    entries an SSE vector and one with 32 / sizeof(T) entries an AVX vector (simdarray.h:58-81).

    Simplifications: where(mask) | x = y and the reductions min, max, sum and product use the models of C13 and C15, which
    compute with the values modulo 2^bits also in the leaves with one entry. *)
From Coq Require Import ZArith List Bool.
From Verif.Spec Require Import Seq CastSpec.
From Verif.Model Require Import Word SseReg SseMove SortNet SseInt SseBuild SseArith SseMask SseNative SimdArray SimdArrayOps Mem
  AvxReg AvxMove AvxBuild AvxShuffle AvxMask AvxArith ScalarVec ScalarMath MaskedDiv GatherScatter AvxGather Program.
Import ListNotations.
Local Open Scope Z_scope.

(** A build: the implementation (MaskedDiv.v), SSSE3 (of Vc_IMPL_SSE), ptest (SSE4.1), popcnt, and whether the compiler sees
    the arguments of shifts and rotations as constants (__builtin_constant_p) *)
Record build := { b_impl : div_build; b_ssse3 : bool; b_ptest : bool; b_popcnt : bool; b_constant : bool }.
Definition b_native (b : build) (e : etype) : nat -> bool := div_native (b_impl b) e.
Definition b_sse41 (b : build) : bool := div_sse41 (b_impl b).
Definition b_has_ssse3 (b : build) : bool := match b_impl b with DAvx _ _ => true | _ => b_ssse3 b end.
Definition b_gcc (b : build) : bool := match b_impl b with DAvx _ g => g | _ => true end.

(** * Leaves *)

(** Scalar vectors, scalar/operators.h:47-95, scalar/math.h:63-71: the C++ operator on the entries, which promotes the types
    shorter than int; None: signed overflow. *)
Definition s_result (e : etype) (z : Z) : option (elt e) :=
  match e with
  | UInt => Some (mkw (esize e) z)
  | _ => if (- 2 ^ 31 <=? z) && (z <=? 2 ^ 31 - 1) then Some (mkw (esize e) z) else None
  end.
Definition s_arith (e : etype) (op : arith_op) (a b : elt e) : option (elt e) :=
  match op with
  | OAdd => s_result e (int_value e a + int_value e b)
  | OSub => s_result e (int_value e a - int_value e b)
  | OMul => s_result e (int_value e a * int_value e b)
  | ODiv => s_idiv e a b
  | OMod => s_imod e a b
  | OAnd => Some (mkw (esize e) (Z.land (int_value e a) (int_value e b)))
  | OOr => Some (mkw (esize e) (Z.lor (int_value e a) (int_value e b)))
  | OXor => Some (mkw (esize e) (Z.lxor (int_value e a) (int_value e b)))
  | OMin => Some (if int_value e b <? int_value e a then b else a)
  | OMax => Some (if int_value e a <? int_value e b then b else a)
  end.
(** scalar/vector.h:189-192 *)
Definition s_negate (e : etype) (a : elt e) : option (elt e) := s_result e (- int_value e a).
(** scalar/vector.h:181-187 ~; scalar/math.h:85-96 abs (int, short), [s_abs_int] and [s_abs_short] of ScalarMath.v *)
Definition s_unary (e : etype) (op : un_op) (a : elt e) : option (elt e) :=
  match op with
  | UCompl => Some (mkw (esize e) (Z.lnot (int_value e a)))
  | UAbs =>
      match e as e return elt e -> option (elt e) with
      | Int => s_abs_int
      | Short => fun a => Some (s_abs_short a)
      | _ => fun _ => None
      end a
  | USqrt => None
  end.
(** scalar/vector.h:195-198, 307-318.  Shift counts of at least the width of the promoted type and left shifts of negative
    values are undefined. *)
Definition s_shift (e : etype) (op : shift_op) (k : Z) (a : elt e) : option (elt e) :=
  if (k <? 0) || (31 <? k) then None
  else match op with
       | OShl => if int_value e a <? 0 then None else s_result e (Z.shiftl (int_value e a) k)
       | OShr => Some (mkw (esize e) (Z.shiftr (int_value e a) k))
       end.
(** scalar/operators.h:37-45 *)
Definition s_compare (e : etype) (op : cmp_op) (a b : elt e) : bool :=
  let x := int_value e a in let y := int_value e b in
  match op with OEq => x =? y | ONe => negb (x =? y) | OLt => x <? y | OLe => x <=? y | OGt => y <? x | OGe => y <=? x end.
(** scalar/mask.h:111-116 *)
Definition s_logic (op : logic_op) : bool -> bool -> bool := match op with LAnd => andb | LOr => orb | LXor => xorb end.

(** SSE vectors: common/operators.h:160-205 and the functions modelled, with their places, in SseArith.v; operator/ and
    operator% are in MaskedDiv.v *)
Definition v_arith (b : build) (e : etype) (op : arith_op) (x y : reg) : reg :=
  match op with
  | OAdd => v_add e x y | OSub => v_sub e x y | OMul => v_mul (b_sse41 b) e x y
  | OAnd => mm_and x y | OOr => mm_or x y | OXor => mm_xor x y
  | OMin => v_min (b_sse41 b) e x y | OMax => v_max (b_sse41 b) e x y
  | ODiv | OMod => x
  end.
(** AVX vectors: common/operators.h:160-205 and the functions modelled, with their places, in AvxArith.v *)
Definition y_arith (e : etype) (op : arith_op) (x y : yreg) : yreg :=
  match op with
  | OAdd => y_add e x y | OSub => y_sub e x y | OMul => y_mul e x y
  | OAnd => ymap2 mm_and x y | OOr => ymap2 mm_or x y | OXor => ymap2 mm_xor x y
  | OMin => y_min e x y | OMax => y_max e x y
  | ODiv | OMod => x
  end.
(** one of three, by the number of entries *)
Definition by_width {X} (b : build) (e : etype) (n : nat) (one : X) (sse : X) (avx : X) (none : X) : X :=
  if (n =? 1)%nat then one
  else if (n =? 16 / esize e)%nat then sse
  else match b_impl b with DAvx _ _ => avx | _ => none end.
Definition leaf_arith (b : build) (e : etype) (op : arith_op) (xs ys : list (elt e)) : option (list (elt e)) :=
  match op with
  | ODiv => leaf_idiv (b_impl b) e xs ys
  | OMod => leaf_imod (b_impl b) e xs ys
  | _ => by_width b e (length xs) (sequence (map2 (s_arith e op) xs ys))
           (Some (lanes (esize e) (v_arith b e op (pack xs) (pack ys))))
           (Some (ylanes (esize e) (y_arith e op (ypack xs) (ypack ys)))) None
  end.
Definition leaf_negate (b : build) (e : etype) (xs : list (elt e)) : option (list (elt e)) :=
  by_width b e (length xs) (sequence (map (s_negate e) xs))
    (Some (lanes (esize e) (v_neg (b_has_ssse3 b) e (pack xs)))) (Some (ylanes (esize e) (y_neg e (ypack xs)))) None.
(** sse/vector.h:295-302 and avx/vector.h:355-362 ~; sse/vector.h:443-451, sse/vectorhelper.h:324, 476 and avx/math.h:91-98 abs *)
Definition v_unary (b : build) (e : etype) (op : un_op) (x : reg) : option reg :=
  match op, e with
  | UCompl, _ => Some (v_not x)
  | UAbs, (Short | Int) => Some (abs_epi (b_has_ssse3 b) (esize e) x)
  | _, _ => None
  end.
Definition y_unary (e : etype) (op : un_op) (x : yreg) : option yreg :=
  match op, e with
  | UCompl, _ => Some (ymap2 mm_andnot x yallone)
  | UAbs, (Short | Int) => Some (y_abs e x)
  | _, _ => None
  end.
Definition leaf_unary (b : build) (e : etype) (op : un_op) (xs : list (elt e)) : option (list (elt e)) :=
  by_width b e (length xs) (sequence (map (s_unary e op) xs))
    (option_map (lanes (esize e)) (v_unary b e op (pack xs))) (option_map (ylanes (esize e)) (y_unary e op (ypack xs))) None.
(** sse/vector.tcc:298-311, avx/vector.tcc:362-375 *)
Definition leaf_shift (b : build) (e : etype) (op : shift_op) (k : Z) (xs : list (elt e)) : option (list (elt e)) :=
  by_width b e (length xs) (sequence (map (s_shift e op k) xs))
    (Some (lanes (esize e) (match op with OShl => v_shl e (pack xs) k | OShr => v_shr e (pack xs) k end)))
    (Some (ylanes (esize e) (match op with OShl => y_shl e (ypack xs) k | OShr => y_shr e (ypack xs) k end))) None.

(** The entries of a native mask: sse/mask.h:223-226, avx/mask.h:195-198 *)
Definition m_entries (e : etype) (k : reg) : list bool := tab (16 / esize e) (m_get (esize e) k).
Definition ym_entries (e : etype) (k : yreg) : list bool := tab (32 / esize e) (ym_get (esize e) k).
Definition v_compare (e : etype) (op : cmp_op) (x y : reg) : reg :=
  match op with
  | OEq => v_eq e x y | ONe => v_ne e x y | OLt => v_lt e x y | OLe => v_le e x y | OGt => v_gt e x y | OGe => v_ge e x y
  end.
Definition y_compare (gcc : bool) (e : etype) (op : cmp_op) (x y : yreg) : yreg :=
  match op with
  | OEq => y_eq e x y | ONe => y_ne e x y | OLt => y_lt e x y | OLe => y_le e x y | OGt => y_gt gcc e x y | OGe => y_ge gcc e x y
  end.
Definition leaf_compare (b : build) (e : etype) (op : cmp_op) (xs ys : list (elt e)) : option (list bool) :=
  by_width b e (length xs) (Some (map2 (s_compare e op) xs ys))
    (Some (m_entries e (v_compare e op (pack xs) (pack ys))))
    (Some (ym_entries e (y_compare (b_gcc b) e op (ypack xs) (ypack ys)))) None.
Definition leaf_logic (b : build) (e : etype) (op : logic_op) (xs ys : list bool) : option (list bool) :=
  let K := mask_reg (esize e) in let Y := ymask_reg (esize e) in
  by_width b e (length xs) (Some (map2 (s_logic op) xs ys))
    (Some (m_entries e (match op with LAnd => m_and (K xs) (K ys) | LOr => m_or (K xs) (K ys) | LXor => m_xor (K xs) (K ys) end)))
    (Some (ym_entries e (match op with LAnd => ym_and (Y xs) (Y ys) | LOr => ym_or (Y xs) (Y ys) | LXor => ym_xor (Y xs) (Y ys) end))) None.
Definition leaf_not (b : build) (e : etype) (xs : list bool) : option (list bool) :=
  by_width b e (length xs) (Some (map negb xs))
    (Some (m_entries e (m_not (mask_reg (esize e) xs)))) (Some (ym_entries e (ym_not (ymask_reg (esize e) xs)))) None.

(** * Arrays *)

Fixpoint op1o {A B} (f : list A -> option (list B)) (t : sa A) : option (sa B) :=
  match t with
  | Leaf xs => r <-- f xs; Some (Leaf r)
  | Node t0 t1 => r0 <-- op1o f t0; r1 <-- op1o f t1; Some (Node r0 r1)
  end.
(** rotated, reversed, sorted, shifted, interleave and partialSum of the native vectors; of the AVX vectors in the builds where
    zeroExtend clears the upper half (AvxBuild.v, C05_avx_undefined_upper_refuted) *)
Definition b_moves (b : build) (e : etype) : native_ops (elt e) :=
  match b_impl b with
  | DScalar => scalar_ops (w0 _)
  | DSse _ => sse_build (b_ssse3 b) e wadd
  | DAvx avx2 _ => avx_build avx2 (b_constant b) e wadd
  end.
Definition b_move (b : build) (e : etype) (op : move_op) (t : sa (elt e)) : option (sa (elt e)) :=
  match op with
  | MRotate k => rotated (b_native b e) (b_moves b e) (w0 _) t k
  | MReverse => reversed (b_native b e) (b_moves b e) (w0 _) t
  | MSort => sorted (b_native b e) (b_moves b e) (w0 _) (e_min e) (e_max e) (e_top e) t
  | MShift k => shifted (b_native b e) (b_moves b e) (w0 _) t k
  | MPartialSum => partial_sum (b_moves b e) (w0 _) wadd t
  end.
(** simdarray.h:1162-1252 and 443-449 shifted(amount, shiftIn); interleave(a, b), common/interleave.h:40-58,
    with simdarray.h:1306-1335 and 462-469 *)
Definition b_shift_in (b : build) (e : etype) (t : sa (elt e)) (k : Z) (s : sa (elt e)) : option (sa (elt e)) :=
  shifted_in (b_native b e) (b_moves b e) (w0 _) t k s.
Definition b_interleave (b : build) (e : etype) (t x : sa (elt e)) : option (sa (elt e) * sa (elt e)) :=
  lo <-- interleave_low (b_native b e) (b_moves b e) (w0 _) t x;
  hi <-- interleave_high (b_native b e) (b_moves b e) (w0 _) t x;
  Some (lo, hi).
Definition b_reduce (b : build) (e : etype) (op : red_op) (t : sa (elt e)) : option (elt e) :=
  match b_impl b, op with
  | DScalar, RMin => reduce (scalar_reduce (w0 _)) (e_min e) t
  | DScalar, RMax => reduce (scalar_reduce (w0 _)) (e_max e) t
  | DScalar, RSum => reduce (scalar_reduce (w0 _)) wadd t
  | DScalar, RProduct => reduce (scalar_reduce (w0 _)) wmul t
  | DSse s, RMin => reduce (sse_min s e) (e_min e) t
  | DSse s, RMax => reduce (sse_max s e) (e_max e) t
  | DSse s, RSum => reduce (sse_sum e) wadd t
  | DSse s, RProduct => reduce (sse_product s e) wmul t
  | DAvx _ _, RMin => reduce (avx_min e) (e_min e) t
  | DAvx _ _, RMax => reduce (avx_max e) (e_max e) t
  | DAvx _ _, RSum => reduce (avx_sum e) wadd t
  | DAvx _ _, RProduct => reduce (avx_product e) wmul t
  end.
Definition b_masks (b : build) (e : etype) : native_mask_ops :=
  match b_impl b with
  | DScalar => scalar_mask_ops
  | DSse _ => sse_mask_ops (b_ptest b) (b_popcnt b) (esize e)
  | DAvx _ _ => avx_mask_ops (b_ptest b) (b_popcnt b) e
  end.

(** min(mask), max(mask), sum(mask), product(mask): simdarray.h:1086-1096; without <Vc/limits>, which is of no effect for the
    integer types (avx/limits.h:77-82) *)
Definition b_reduce_mask (b : build) (e : etype) (op : red_op) (t : sa (elt e)) (k : sa bool) : option (elt e) :=
  let red := reduce_masked (b_masks b e) in
  match b_impl b, op with
  | DScalar, RMin => red (scalar_minmax_masked (w0 _)) (e_min e) t k
  | DScalar, RMax => red (scalar_minmax_masked (w0 _)) (e_max e) t k
  | DScalar, RSum => red (scalar_sumprod_masked (w0 _) (w0 _)) wadd t k
  | DScalar, RProduct => red (scalar_sumprod_masked (w0 _) (mkw _ 1)) wmul t k
  | DSse s, RMin => red (sse_min_masked s e) (e_min e) t k
  | DSse s, RMax => red (sse_max_masked s e) (e_max e) t k
  | DSse s, RSum => red (sse_sum_masked s e) wadd t k
  | DSse s, RProduct => red (sse_product_masked s e) wmul t k
  | DAvx _ _, RMin => red (avx_min_masked false e) (e_min e) t k
  | DAvx _ _, RMax => red (avx_max_masked false e) (e_max e) t k
  | DAvx _ _, RSum => red (avx_sum_masked e) wadd t k
  | DAvx _ _, RProduct => red (avx_product_masked e) wmul t k
  end.

(** gather and scatter with the indexes in an array of n ints: GatherScatter.v and AvxGather.v (simdarray.h:1482-1530).  The
    masked ones test the mask entry by entry (sse/vector.tcc:350-370, 380-397, avx/vector.tcc:433-480; the other strategies
    need Vc_USE_BSF_GATHERS, Vc_USE_POPCNT_BSF_GATHERS or Vc_USE_SET_GATHERS).  Simplification: an index times the size
    of an entry does not overflow. *)
Definition b_gather (b : build) (e : etype) (n : nat) (t : sa (elt e)) (m : memory (elt e)) (p : Z) (ix : Z -> Z) (k : option (sa bool)) : option (sa (elt e)) :=
  let x := IxPointer (tab n ix) 0 in
  match b_impl b, k with
  | DAvx _ _, None => avx_gather m p x t
  | DAvx _ _, Some ks => avx_gather_mask SimpleLoop (b_popcnt b) (esize e) m p x ks t
  | _, None => sse_gather m p x t
  | _, Some ks => sse_gather_mask SimpleLoop (b_popcnt b) (esize e) m p x ks t
  end.
Definition b_scatter (b : build) (e : etype) (n : nat) (t : sa (elt e)) (m : memory (elt e)) (p : Z) (ix : Z -> Z) (k : option (sa bool)) : option (memory (elt e)) :=
  let x := IxPointer (tab n ix) 0 in
  match b_impl b, k with
  | DAvx _ _, None => avx_scatter (w0 _) t p x m
  | DAvx _ _, Some ks => avx_scatter_mask (w0 _) SimpleLoop (b_popcnt b) (esize e) t p x ks m
  | _, None => sse_scatter (w0 _) t p x m
  | _, Some ks => sse_scatter_mask (w0 _) SimpleLoop (b_popcnt b) (esize e) t p x ks m
  end.

(** SimdArray<T, n> in a build *)
Definition implementation (b : build) (e : etype) (n : nat) : vops (elt e) (sa (elt e)) (sa bool) := {|
  o_generate := generate (b_native b e) n;
  o_arith := fun op => op2o (leaf_arith b e op);
  o_negate := op1o (leaf_negate b e);
  o_unary := fun op => op1o (leaf_unary b e op);
  o_copysign := fun _ _ => None; (* floating-point types only *)
  o_test := fun _ _ => None;
  o_shift := fun op t k => op1o (leaf_shift b e op k) t;
  o_compare := fun op => op2o (leaf_compare b e op);
  o_logic := fun op => op2o (leaf_logic b e op);
  o_not := op1o (leaf_not b e);
  o_assign := assign (div_assign (b_impl b) e);
  o_move := b_move b e;
  o_shift_in := b_shift_in b e;
  o_interleave := b_interleave b e;
  o_reduce := b_reduce b e;
  o_reduce_mask := b_reduce_mask b e;
  o_get := get (w0 _);
  o_set := fun t i v => if (0 <=? i) && (i <? isize t) then Some (set t i v) else None;
  o_load := fun m p => load (b_native b e) m p n;
  o_store := store;
  o_full := is_full (b_masks b e);
  o_not_empty := is_not_empty (b_masks b e);
  o_count := SimdArrayOps.count (b_masks b e);
  o_mask_get := mask_get;
  o_gather := b_gather b e n;
  o_scatter := b_scatter b e n
|}.
(** zero-initialised arrays and masks *)
Definition b_zero (b : build) (e : etype) (n : nat) : sa (elt e) := generate (b_native b e) n (fun _ => w0 _).
Definition b_none (b : build) (e : etype) (n : nat) : sa bool := generate (b_native b e) n (fun _ => false).
