(** Integer division and remainder of SimdArray<T, N> (T = short, unsigned short, int, unsigned int), and the compound
    assignments x(mask) /= y, x(mask) %= y, where(mask) | x /= y and where(mask) | x %= y.

    The division of a SimdArray applies the division of the native vectors to both halves (simdarray.h:355-364, 998-1008
    and 1694-1705).  A native vector is chosen by its number of entries (58-81).  None: undefined behaviour. *)
From Coq Require Import ZArith List Bool.
From Verif.Spec Require Import Seq CastSpec.
From Verif.Model Require Import Word Fp FpArith SseReg SseMove SortNet SseInt SseBuild SseArith SseMask SseNative SimdArray SimdArrayOps Mem SseConvert
  AvxReg AvxMove AvxBuild AvxShuffle AvxMask AvxArith AvxConvert ScalarVec.
Import ListNotations.
Local Open Scope Z_scope.

(** Vc_IMPL_Scalar; Vc_IMPL_SSE without and with SSE4.1; Vc_IMPL_AVX without and with AVX2, [gcc] as in AvxArith.v *)
Inductive div_build := DScalar | DSse (sse41 : bool) | DAvx (avx2 gcc : bool).
Definition div_native (b : div_build) (e : etype) : nat -> bool :=
  match b with DScalar => scalar_native | DSse _ => sse_native (esize e) | DAvx avx2 _ => avx_widths_of avx2 e end.
Definition div_sse41 (b : div_build) : bool := match b with DSse s => s | _ => true end.

(** The Scalar vector: scalar/operators.h:86-95, a / b and a % b of the entries.  Short operands are promoted to int, so
    that -32768 / -1 is 32768 (and wraps when it is stored); INT_MIN / -1 and INT_MIN % -1 are undefined. *)
Definition cxx_defined (e : etype) (x y : elt e) : bool :=
  negb ((int_value e y =? 0) || (match e with Int => (int_value e x =? - 2 ^ 31) && (int_value e y =? -1) | _ => false end)).
Definition s_idiv (e : etype) (x y : elt e) : option (elt e) :=
  if cxx_defined e x y then Some (mkw (esize e) (Z.quot (int_value e x) (int_value e y))) else None.
Definition s_imod (e : etype) (x y : elt e) : option (elt e) :=
  if cxx_defined e x y then Some (mkw (esize e) (Z.rem (int_value e x) (int_value e y))) else None.

(** operator/ of the native vector with as many entries as [xs] *)
Definition leaf_idiv (b : div_build) (e : etype) (xs ys : list (elt e)) : option (list (elt e)) :=
  if (length xs =? 1)%nat then sequence (map2 (s_idiv e) xs ys)
  else if (length xs =? 16 / esize e)%nat then option_map (lanes (esize e)) (v_idiv (div_sse41 b) e (pack xs) (pack ys))
  else match b with
       | DAvx avx2 gcc => Some (ylanes (esize e) (y_idiv avx2 gcc e (ypack xs) (ypack ys)))
       | _ => None
       end.
(** operator% *)
Definition leaf_imod (b : div_build) (e : etype) (xs ys : list (elt e)) : option (list (elt e)) :=
  if (length xs =? 1)%nat then sequence (map2 (s_imod e) xs ys)
  else if (length xs =? 16 / esize e)%nat then option_map (lanes (esize e)) (v_imod (div_sse41 b) e (pack xs) (pack ys))
  else match b with
       | DAvx avx2 gcc => Some (ylanes (esize e) (y_imod avx2 gcc e (ypack xs) (ypack ys)))
       | _ => None
       end.
Fixpoint op2o {A B C} (f : list A -> list B -> option (list C)) (t : sa A) (x : sa B) : option (sa C) :=
  match t, x with
  | Leaf xs, Leaf ys => r <-- f xs ys; Some (Leaf r)
  | Node t0 t1, Node x0 x1 => r0 <-- op2o f t0 x0; r1 <-- op2o f t1 x1; Some (Node r0 r1)
  | _, _ => None
  end.
Definition a_div (b : div_build) (e : etype) : sa (elt e) -> sa (elt e) -> option (sa (elt e)) := op2o (leaf_idiv b e).
Definition a_mod (b : div_build) (e : etype) : sa (elt e) -> sa (elt e) -> option (sa (elt e)) := op2o (leaf_imod b e).

(** assign(v, mask) of the native vectors *)
Definition div_assign (b : div_build) (e : etype) : list (elt e) -> list (elt e) -> list bool -> list (elt e) :=
  match b with DScalar => scalar_assign | DSse s => sse_assign s e | DAvx _ _ => avx_assign e end.
(** writemaskedvector.h:84-97: vec.assign(vec op x, mask), for SimdArray through simdarray.h:402, 1049 and, for where,
    where.h:67-68 with simdarray.h:2542-2556; the same for the SSE and AVX vectors (sse/vector.h:462-475,
    avx/vector.h:505-518: the tree with a single leaf). *)
Definition masked_div (b : div_build) (e : etype) (vec x : sa (elt e)) (k : sa bool) : option (sa (elt e)) :=
  r <-- a_div b e vec x; assign (div_assign b e) vec r k.
Definition masked_mod (b : div_build) (e : etype) (vec x : sa (elt e)) (k : sa bool) : option (sa (elt e)) :=
  r <-- a_mod b e vec x; assign (div_assign b e) vec r k.

(** The Scalar vector alone.  where(mask) | x /= y: scalar/vector.h:320-335, where.h:67-68 *)
Definition s_where_div (e : etype) (x y : elt e) (k : bool) : option (elt e) := if k then s_idiv e x y else Some x.
Definition s_where_mod (e : etype) (x y : elt e) (k : bool) : option (elt e) := if k then s_imod e x y else Some x.
(** x(mask) /= y: scalar/vector.h:224-227, writemaskedvector.h:84-97, scalar/vector.h:206-208 *)
Definition s_call_div (e : etype) (x y : elt e) (k : bool) : option (elt e) := q <-- s_idiv e x y; Some (if k then q else x).
Definition s_call_mod (e : etype) (x y : elt e) (k : bool) : option (elt e) := q <-- s_imod e x y; Some (if k then q else x).
