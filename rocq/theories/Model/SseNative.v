(** The native reductions and write-masked operations of an SSE build, on entry lists: vectors with
    16 / sizeof(T) entries use the register code of SseArith.v / SseMask.v, vectors with one entry are
    Vc::Scalar vectors (select_best_vector_type, common/simdarray.h:60-81). *)
From Coq Require Import ZArith List Bool.
From Verif.Spec Require Import Seq.
From Verif.Model Require Import Word Fp SseReg SseMove SortNet SseInt SimdArray SimdArrayOps ScalarVec SseBuild SseArith SseMask.
Import ListNotations.
Local Open Scope Z_scope.

Definition one_or {X A} (xs : list A) (s v : X) : X := if Nat.eqb (length xs) 1 then s else v.

(** min() / max() / sum() / product(): sse/vector.h:348-351, scalar/vector.h:229-232 *)
Definition sse_min (sse41 : bool) (e : etype) (xs : list (elt e)) : elt e :=
  one_or xs (scalar_reduce (w0 _) xs) (v_min_all sse41 e (pack xs)).
Definition sse_max (sse41 : bool) (e : etype) (xs : list (elt e)) : elt e :=
  one_or xs (scalar_reduce (w0 _) xs) (v_max_all sse41 e (pack xs)).
Definition sse_sum (e : etype) (xs : list (elt e)) : elt e :=
  one_or xs (scalar_reduce (w0 _) xs) (v_sum e (pack xs)).
Definition sse_product (sse41 : bool) (e : etype) (xs : list (elt e)) : elt e :=
  one_or xs (scalar_reduce (w0 _) xs) (v_product sse41 e (pack xs)).

(** min(mask), ...: sse/vector.tcc:426-449, scalar/vector.h:234-244 *)
Definition sse_min_masked (sse41 : bool) (e : etype) (xs : list (elt e)) (m : list bool) : elt e :=
  one_or xs (scalar_minmax_masked (w0 _) xs m) (v_min_masked sse41 e (pack xs) (mask_reg (esize e) m)).
Definition sse_max_masked (sse41 : bool) (e : etype) (xs : list (elt e)) (m : list bool) : elt e :=
  one_or xs (scalar_minmax_masked (w0 _) xs m) (v_max_masked sse41 e (pack xs) (mask_reg (esize e) m)).
Definition sse_sum_masked (sse41 : bool) (e : etype) (xs : list (elt e)) (m : list bool) : elt e :=
  one_or xs (scalar_sumprod_masked (w0 _) (w0 _) xs m) (v_sum_masked sse41 e (pack xs) (mask_reg (esize e) m)).
Definition sse_product_masked (sse41 : bool) (e : etype) (xs : list (elt e)) (m : list bool) : elt e :=
  one_or xs (scalar_sumprod_masked (w0 _) (mkw _ 1) xs m) (v_product_masked sse41 e (pack xs) (mask_reg (esize e) m)).

(** assign(v, mask), setZeroInverted(mask): sse/vector.h:322-325, sse/vector.tcc:234-237,
    scalar/vector.h:206-208, 127-129 *)
Definition sse_assign (sse41 : bool) (e : etype) (xs vs : list (elt e)) (m : list bool) : list (elt e) :=
  one_or xs (scalar_assign xs vs m) (lanes (esize e) (v_assign sse41 (pack xs) (pack vs) (mask_reg (esize e) m))).
Definition sse_zero_inverted (e : etype) (xs : list (elt e)) (m : list bool) : list (elt e) :=
  one_or xs (scalar_zero_inverted (w0 _) xs m) (lanes (esize e) (v_set_zero_inverted (pack xs) (mask_reg (esize e) m))).
