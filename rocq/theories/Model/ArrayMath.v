(** Mathematical functions of SimdArray<T, N> (T = float, double): simdarray.h:1758-1859.

    A function is forwarded to fromOperation (simdarray.h:915-924), which applies it to both halves, down to native vectors
    (261-267).  A native vector is chosen by its number of entries (58-81): the AVX vector (AVX builds), the SSE vector (SSE
    and AVX builds), or the Scalar vector with one entry.  [w] is sizeof(T). *)
From Coq Require Import ZArith List Bool.
From Verif.Spec Require Import Seq FloatSpec.
From Verif.Model Require Import Word Fp FpArith SseReg SseMove SortNet SseInt SseBuild SseArith SseMask SimdArray SimdArrayOps Mem SseConvert SseMath
  AvxReg AvxMove AvxBuild AvxShuffle AvxMask AvxArith AvxConvert AvxMath ScalarVec ScalarMath.
Import ListNotations.
Local Open Scope Z_scope.

(** Vc_IMPL_Scalar; Vc_IMPL_SSE without and with SSE4.1; Vc_IMPL_AVX *)
Inductive math_build := MScalar | MSse (sse41 : bool) | MAvx.
Definition has_sse41 (b : math_build) : bool := match b with MSse s => s | _ => true end.
(** the numbers of entries of the native vectors (simdarray.h:58-81) *)
Definition math_native (b : math_build) (w : nat) : nat -> bool :=
  match b with MScalar => scalar_native | MSse _ => sse_native w | MAvx => avx_native w end.
Definition fp_type (w : nat) : etype := match w with 4%nat => Float | _ => Double end.

(** the native function: [s] is the Scalar, [v] the SSE (an SSE4.1 build in AVX builds) and [y] the AVX function *)
Definition leaf1 (b : math_build) (w : nat) (s : word w -> word w) (v : bool -> reg -> reg) (y : yreg -> yreg) (xs : list (word w)) : list (word w) :=
  if (length xs =? 1)%nat then map s xs
  else if (length xs =? 16 / w)%nat then lanes w (v (has_sse41 b) (pack xs))
  else ylanes w (y (ypack xs)).
Definition leaf2 (b : math_build) (w : nat) (s : word w -> word w -> word w) (v : bool -> reg -> reg -> reg) (y : yreg -> yreg -> yreg)
    (xs ys : list (word w)) : list (word w) :=
  if (length xs =? 1)%nat then map2 s xs ys
  else if (length xs =? 16 / w)%nat then lanes w (v (has_sse41 b) (pack xs) (pack ys))
  else ylanes w (y (ypack xs) (ypack ys)).
(** functions that return a mask: entry i is the sign of entry i of the register (SseMask.v) *)
Definition leaf_mask (b : math_build) (w : nat) (s : word w -> bool) (v : bool -> reg -> reg) (y : yreg -> yreg) (xs : list (word w)) : list bool :=
  if (length xs =? 1)%nat then map s xs
  else if (length xs =? 16 / w)%nat then map negative (lanes w (v (has_sse41 b) (pack xs)))
  else map negative (ylanes w (y (ypack xs))).

(** simdarray.h:915-924, 261-267 with one and with two arguments *)
Fixpoint op1 {A B} (f : list A -> list B) (t : sa A) : sa B :=
  match t with
  | Leaf xs => Leaf (f xs)
  | Node d0 d1 => Node (op1 f d0) (op1 f d1)
  end.
Fixpoint op2 {A B C} (f : list A -> list B -> list C) (t : sa A) (x : sa B) : option (sa C) :=
  match t, x with
  | Leaf xs, Leaf ys => Some (Leaf (f xs ys))
  | Node t0 t1, Node x0 x1 => r0 <-- op2 f t0 x0; r1 <-- op2 f t1 x1; Some (Node r0 r1)
  | _, _ => None
  end.

(** simdarray.h:1806, 1810, 1815, 1843, 1853 *)
Definition a_abs b w : sa (word w) -> sa (word w) := op1 (leaf1 b w s_fabs (fun _ => v_fabs w) (y_fabs w)).
Definition a_trunc b w : sa (word w) -> sa (word w) := op1 (leaf1 b w s_trunc (fun k => v_trunc k w) (y_trunc w)).
Definition a_floor b w : sa (word w) -> sa (word w) := op1 (leaf1 b w s_floor (fun k => v_floor k w) (y_floor w)).
Definition a_ceil b w : sa (word w) -> sa (word w) := op1 (leaf1 b w s_ceil (fun k => v_ceil k w) (y_ceil w)).
Definition a_round b w : sa (word w) -> sa (word w) := op1 (leaf1 b w s_round (fun k => v_round k w) (y_round w)).
(** simdarray.h:1811, 1854, 1855 *)
Definition a_copysign b w : sa (word w) -> sa (word w) -> option (sa (word w)) := op2 (leaf2 b w (s_copysign w) (fun _ => v_copysign w) (y_copysign w)).
Definition a_min b w : sa (word w) -> sa (word w) -> option (sa (word w)) := op2 (leaf2 b w s_min (fun k => v_min k (fp_type w)) (y_min (fp_type w))).
Definition a_max b w : sa (word w) -> sa (word w) -> option (sa (word w)) := op2 (leaf2 b w s_max (fun k => v_max k (fp_type w)) (y_max (fp_type w))).
(** simdarray.h:1823-1826 *)
Definition a_isfinite b w : sa (word w) -> sa bool := op1 (leaf_mask b w s_isfinite (fun _ => v_isfinite w) (y_isfinite w)).
Definition a_isinf b w : sa (word w) -> sa bool := op1 (leaf_mask b w s_isinf (fun k => v_isinf k w) (y_isinf w)).
Definition a_isnan b w : sa (word w) -> sa bool := op1 (leaf_mask b w s_isnan (fun _ => v_isnan w) (y_isnan w)).
Definition a_isnegative b w : sa (word w) -> sa bool := op1 (leaf_mask b w (s_isnegative w) (fun _ => v_isnegative w) (y_isnegative w)).

(** simdarray.h:1817-1822, with three arguments *)
Definition leaf3 (b : math_build) (w : nat) (s : word w -> word w -> word w -> word w) (v : bool -> reg -> reg -> reg -> reg) (y : yreg -> yreg -> yreg -> yreg)
    (xs ys zs : list (word w)) : list (word w) :=
  if (length xs =? 1)%nat then map2 (fun f z => f z) (map2 s xs ys) zs
  else if (length xs =? 16 / w)%nat then lanes w (v (has_sse41 b) (pack xs) (pack ys) (pack zs))
  else ylanes w (y (ypack xs) (ypack ys) (ypack zs)).
Fixpoint op3 {A B C D} (f : list A -> list B -> list C -> list D) (t : sa A) (x : sa B) (u : sa C) : option (sa D) :=
  match t, x, u with
  | Leaf xs, Leaf ys, Leaf zs => Some (Leaf (f xs ys zs))
  | Node t0 t1, Node x0 x1, Node u0 u1 => r0 <-- op3 f t0 x0 u0; r1 <-- op3 f t1 x1 u1; Some (Node r0 r1)
  | _, _, _ => None
  end.
Definition a_fma4 b : sa (word 4) -> sa (word 4) -> sa (word 4) -> option (sa (word 4)) := op3 (leaf3 b 4 s_fma (fun _ => v_fma_ps) y_fma_ps).
Definition a_fma8 b : sa (word 8) -> sa (word 8) -> sa (word 8) -> option (sa (word 8)) := op3 (leaf3 b 8 s_fma v_fma_pd y_fma_pd).
