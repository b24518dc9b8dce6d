(** operator new of the vector classes and of the helper classes for aligned objects. *)
From Coq Require Import ZArith List Bool.
From Verif.Model Require Import MemoryClass Malloc SplitSize ElementRef.
Import ListNotations.
Local Open Scope Z_scope.

(** alignedbase.h:38-48 Detail::max of one or more arguments *)
Fixpoint detail_max (a : Z) (rest : list Z) : Z :=
  match rest with [] => a | b :: rest' => if a >? b then detail_max a rest' else detail_max b rest' end.

(** the entry types of alignedbase.h:88-92 in that order *)
Inductive entry_type := TFloat | TDouble | TULLong | TLLong | TULong | TLong | TUInt | TInt | TUShort | TShort | TUChar | TSChar.
Inductive implementation := IScalar | ISse | IAvx | IAvx2.
(** alignof of the entry types (x86-64) *)
Definition entry_align (t : entry_type) : Z :=
  match t with
  | TFloat | TUInt | TInt => 4
  | TDouble | TULLong | TLLong | TULong | TLong => 8
  | TUShort | TShort => 2
  | TUChar | TSChar => 1
  end.
(** alignof(Vector<T>) and Vector<T>::MemoryAlignment (scalar/vector.h:77, sse/vector.h:77, avx/vector.h:95) for the default
    implementation of T (vectorabi.h:35-57): 16 bytes for an SSE vector, 32 for an AVX vector *)
Definition vector_align (i : implementation) (t : entry_type) : Z :=
  match i with
  | IScalar => entry_align t
  | ISse => 16
  | IAvx => match t with TFloat | TDouble => 32 | _ => 16 end
  | IAvx2 => 32
  end.
(** alignedbase.h:88-92 VectorAlignedBase and 118-125 MemoryAlignedBase *)
Definition aligned_base (i : implementation) : Z :=
  let a := vector_align i in
  detail_max (a TFloat) [a TDouble; a TULLong; a TLLong; a TULong; a TLong; a TUInt; a TInt; a TUShort; a TShort; a TUChar; a TSChar].

(** SimdMaskArray<T, n>: size and alignment.  simdmaskarray.h:286-291 (one mask of [ms n] bytes, aligned at its size: 16 bytes for an
    SSE mask, 32 for an AVX mask, 1 for a Scalar mask), 695-701 (data0, data1) *)
Fixpoint mask_placement (fuel : nat) (native : nat -> bool) (bound : option Z) (s : Z) (ms : nat -> Z) (n : nat) : Z * Z :=
  match fuel with
  | O => (0, 1)
  | S f =>
      let given := bounded bound (Z.of_nat (next_pow2 n) * s) in
      if native n then let a := Z.max (ms n) given in (round_up (ms n) a, a)
      else
        let (s0, a0) := mask_placement f native bound s ms (left_size n) in
        let (s1, a1) := mask_placement f native bound s ms (right_size n) in
        let a := Z.max given (Z.max a0 a1) in
        (round_up (round_up s0 a1 + s1) a, a)
  end.

Section New.
  Variable posix_memalign : Z -> Z -> option Z.
  (** macros.h:183-198 Vc_FREE_STORE_OPERATORS_ALIGNED: operator new and new[]; None is a null pointer *)
  Definition operator_new (alignment size : Z) : option Z := aligned_malloc posix_memalign alignment size.
  (** new of a class derived from VectorAlignedBase or MemoryAlignedBase (alignedbase.h:67-70) *)
  Definition aligned_base_new (i : implementation) (size : Z) : option Z := operator_new (aligned_base i) size.
  (** simdarray.h:503 (alignof(storage_type), the alignment of the vector), simdarray.h:1464 (alignof(storage_type0), the alignment
      of the left half) *)
  Definition array_new_alignment (native : nat -> bool) (bound : option Z) (s : Z) (n : nat) : Z :=
    if native n then Z.of_nat n * s else p_align (simdarray_placement native bound s (left_size n)).
  (** new SimdArray<T, n> with sizeof(T) = s *)
  Definition array_new (native : nat -> bool) (bound : option Z) (s : Z) (n : nat) : option Z :=
    operator_new (array_new_alignment native bound s n) (p_size (simdarray_placement native bound s n)).
  (** new SimdMaskArray<T, n>: simdmaskarray.h:79 with 59 (the alignment of the mask), 371 with 341 (the alignment of the whole
      array) *)
  Definition mask_new (native : nat -> bool) (bound : option Z) (s : Z) (ms : nat -> Z) (n : nat) : option Z :=
    let (size, alignment) := mask_placement n native bound s ms n in
    operator_new (if native n then ms n else alignment) size.
  (** new SimdMaskArray<T, n>[count]: macros.h:194-197 with the same alignment.  Because operator delete[] takes the size (205-208), the
      new expression also asks for a cookie in front of the elements (Itanium C++ ABI 2.7): the larger of sizeof(size_t) and the
      alignment of the elements *)
  Definition array_cookie (alignment : Z) : Z := Z.max 8 alignment.
  Definition mask_new_array (native : nat -> bool) (bound : option Z) (s : Z) (ms : nat -> Z) (n : nat) (count : Z) : option Z :=
    let (size, alignment) := mask_placement n native bound s ms n in
    let cookie := array_cookie alignment in
    match operator_new (if native n then ms n else alignment) (cookie + count * size) with Some p => Some (p + cookie) | None => None end.
End New.
