(** The native vector types of a build with AVX or AVX2, assembled from the models of their member
    functions.  With AVX2 every type has vectors of 256 bits (Vc/avx), 128 bits (Vc/sse) and one
    entry (Vc/scalar).  With AVX only float and double have 256-bit vectors (Avx1Abi, common/vectorabi.h:35-37). *)
From Coq Require Import ZArith List Bool.
From Verif.Spec Require Import Seq.
From Verif.Model Require Import SplitSize SimdArray ScalarVec Word Fp SseReg SseMove SortNet SseBuild AvxReg AvxMove.
Import ListNotations.
Local Open Scope Z_scope.

(** avx/detail.h:938-944 sorted() -> src/avx_sorthelper.cpp; the scalar >= of lines 241-248 and
    287-293 is the one of int and unsigned int *)
Definition avx_sort (e : etype) : list (elt e) -> list (elt e) :=
  match e with
  | Short => avx_sorted16 (e_min Short) (e_max Short)
  | UShort => avx_sorted16 (e_min UShort) (e_max UShort)
  | Int => avx_sorted32 (w0 4) (e_min Int) (e_max Int) (fun a b => le_s b a)
  | UInt => avx_sorted32 (w0 4) (e_min UInt) (e_max UInt) (fun a b => le_u b a)
  | Float => avx_sorted_ps (e_min Float) (e_max Float)
  | Double => avx_sorted_pd (e_min Double) (e_max Double)
  end.

(** common/vectorabi.h:35-57, common/simdarray.h:58-81 (select_best_vector_type): which lengths have
    a native vector *)
Definition has256 (avx2 : bool) (e : etype) : bool := avx2 || negb (is_integer e).
Definition avx_widths_of (avx2 : bool) (e : etype) (n : nat) : bool :=
  if has256 avx2 e then avx_native (esize e) n else sse_native (esize e) n.

(** All native member functions.  [undef] is the upper half that _mm256_castsi128_si256 leaves
    undefined (AvxMove.v). *)
Definition avx_build_undef (undef : list Z) (avx2 constant : bool) (e : etype) (add : elt e -> elt e -> elt e) : native_ops (elt e) :=
  if has256 avx2 e
  then avx_ops 0 Z.lor undef (esize e) enc dec (w0 (esize e)) add (sse_sort e) (avx_sort e) constant
  else sse_build true e add.
(** the build where zeroExtend (avx/casts.h:79-82) clears the upper half *)
Definition avx_build : bool -> bool -> forall e, (elt e -> elt e -> elt e) -> native_ops (elt e) :=
  avx_build_undef (repeat 0 16).
