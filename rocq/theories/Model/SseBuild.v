(** The native vector types of a build with SSE: short_v, ushort_v, int_v, uint_v, float_v, double_v
    (Vc::SSE::Vector<T>), assembled from the models of their member functions. *)
From Coq Require Import ZArith List Bool.
From Verif.Spec Require Import Seq.
From Verif.Model Require Import SplitSize SimdArray ScalarVec Word Fp SseReg SseMove SortNet.
Import ListNotations.
Local Open Scope Z_scope.

(** value_type of the vector; sse/types.h *)
Inductive etype := Short | UShort | Int | UInt | Float | Double.

Definition esize (e : etype) : nat :=
  match e with Short | UShort => 2 | Int | UInt | Float => 4 | Double => 8 end.
Definition elt (e : etype) : Type := word (esize e).

Definition is_integer (e : etype) : bool := match e with Float | Double => false | _ => true end.

(** sse/vector.h:431-442 min / max (-> sse/vectorhelper.h, sse/intrinsics.h:524-547): what one lane
    becomes.  For the integer types this is proved of the register code (C22); for float and double
    it is minps / maxps. *)
Definition e_min (e : etype) : elt e -> elt e -> elt e :=
  match e with
  | Short | Int => fun a b => if le_s a b then a else b
  | UShort | UInt => fun a b => if le_u a b then a else b
  | Float | Double => mm_fmin
  end.
Definition e_max (e : etype) : elt e -> elt e -> elt e :=
  match e with
  | Short | Int => fun a b => if le_s a b then b else a
  | UShort | UInt => fun a b => if le_u a b then b else a
  | Float | Double => mm_fmax
  end.

(** the order of the integer types *)
Definition e_le (e : etype) : elt e -> elt e -> bool :=
  match e with Short | Int => le_s | _ => le_u end.
(** std::numeric_limits<T>::max() of the integer types, infinity of the others
    (common/simdarray.h:1386-1393) *)
Definition e_top (e : etype) : elt e :=
  match e with
  | Short | Int => mkw _ (sign_weight (esize e) - 1)
  | UShort | UInt => mkw _ (-1)
  | Float | Double => pos_inf _
  end.

(** sse/detail.h:775-786 sorted() (-> src/sse_sorthelper.cpp), sse/vector.tcc:615-630 *)
Definition sse_sort (e : etype) : list (elt e) -> list (elt e) :=
  match e with
  | Short => sse_sorted16 (w0 2) (e_min Short) (e_max Short)
  | UShort => sse_sorted16 (w0 2) (e_min UShort) (e_max UShort)
  | Int => sse_sorted32 (e_min Int) (e_max Int)
  | UInt => sse_sorted32 (e_min UInt) (e_max UInt)
  | Float => sse_sorted_ps (e_min Float) (e_max Float)
  | Double => sse_sorted_pd (e_min Double) (e_max Double)
  end.

(** All native member functions; [add] is the lane addition of the type. *)
Definition sse_build (ssse3 : bool) (e : etype) (add : elt e -> elt e -> elt e) : native_ops (elt e) :=
  sse_ops 0 Z.lor (esize e) enc dec (w0 (esize e)) add (sse_sort e) ssse3.
