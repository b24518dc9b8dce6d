(** Vc::tie(v0, v1, ...) = data[indexes][&S::member]...: Vc/common/vectortuple.h:102-111 *)
From Coq Require Import ZArith List Bool.
From Verif.Spec Require Import Seq SubscriptSpec.
From Verif.Model Require Import Word SimdArray Mem GatherScatter.
From Verif.Model Require Interleave AvxInterleave Subscript.
Import ListNotations.
Local Open Scope Z_scope.

Section Tie.
  Context {A : Type} (zero : A).
  (** The deinterleave functions of the native vectors: sse/detail.h, scalar/detail.h (as in Interleave.v) or avx/detail.h *)
  Inductive vectors := SseOrScalar | AvxVectors.
  Definition deinterleave (b : vectors) (n c : nat) (data : Z) (i : Z -> Z) (m : memory A) : option (list (list A)) :=
    match b with
    | SseOrScalar => Interleave.deinterleave_impl zero n c data i m
    | AvxVectors => AvxInterleave.avx_deinterleave_impl zero n c Interleave.AnyIndex data i m
    end.
  (** vectortuple.h:102-111.  [c] vectors with [n] entries of [w] bytes.  gatherArguments() returns the indexes, the address, and
      as the third argument of its type a scale; the scale is not used here.  The struct size of the access is 1, so that its
      constructor keeps the indexes (interleavedmemory.h:85-98).  The indexes are a SIMD vector: the access asks for I::AsArg.
      Simplification: indexes[i] is the number itself, for every type of the indexes. *)
  Definition tie_assign (b : vectors) (n c : nat) (w : Z) (k : index_kind) (st : storage) (T : ctype) (data : Z) (indexes : list Z) (p : list step)
      (m : memory A) : option (list (list A)) :=
    if is_simd st then
      o <-- Subscript.follow k st (Subscript.subscript_operator T data indexes) p;
      args <-- Subscript.gather_arguments k st o;
      let m_indexes := fst args in
      deinterleave b n c 0 (fun e => znth 0 m_indexes e) (Subscript.elements w (Subscript.o_address o) m)
    else None.
End Tie.
