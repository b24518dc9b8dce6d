(** What loads and stores have to do, on a memory of bytes. *)
From Coq Require Import ZArith List Bool.
From Verif.Spec Require Import Seq CastSpec ByteMemSpec.
From Verif.Model Require Import Word SseBuild SseReg Mem LoadStore.
Import ListNotations.
Local Open Scope Z_scope.

(** [a] points to an array of elements of type [mt] whose bit patterns are the numbers [vs] *)
Definition elements_at (m : memory Z) (a : Z) (mt : mem_type) (vs : list Z) : Prop :=
  forall i, 0 <= i < Z.of_nat (length vs) -> number_at m (a + i * Z.of_nat (mt_size mt)) (mt_size mt) (znth 0 vs i).
(** [y] is the element with bit pattern [v] converted to the type [e] as in C++; characters are promoted to int *)
Definition converted (mt : mem_type) (e : etype) (v : Z) (y : elt e) : Prop :=
  match mt with
  | MSChar => cast_ok Int e (mkw 4 (as_signed 1 v)) y
  | MUChar => cast_ok Int e (mkw 4 v) y
  | MElt u => cast_ok u e (mkw (esize u) v) y
  end.
(** the element types a vector of the type [e] can be loaded from (loads that compile) *)
Definition loads_from (e : etype) (mt : mem_type) : bool :=
  match e, mt with
  | Short, (MSChar | MUChar | MElt (Short | UShort)) => true
  | UShort, (MUChar | MElt UShort) => true
  | Int, (MSChar | MUChar | MElt (Short | UShort | Int | UInt)) => true
  | UInt, (MUChar | MElt (UShort | UInt)) => true
  | Float, _ => true
  | Double, MElt _ => true
  | _, _ => false
  end.
(** the ones where the AVX implementation is right *)
Definition avx_loads_from (e : etype) (mt : mem_type) : bool :=
  loads_from e mt && match e, mt with Double, MElt (Short | UShort) => false | Float, MElt UInt => false | _, _ => true end.

(** the alignment of a vector or SimdArray with n entries of w bytes: the size of the largest register it uses *)
Definition sse_alignment (w n : nat) : Z := if (n <? 16 / w)%nat then Z.of_nat w else 16.
Definition avx_alignment (full : bool) (w n : nat) : Z := if full && (32 / w <=? n)%nat then 32 else sse_alignment w n.
(** an address a load or store with the flags [f] accepts *)
Definition flag_ok (f : ls_flags) (alignment a : Z) : Prop := unaligned f = true \/ (alignment | a).

(** [m'] is [m] with the entries of [xs] selected by [ks] written to the array at [a], and no other byte changed *)
Definition stored {w} (m : memory Z) (a : Z) (xs : list (word w)) (ks : list bool) (m' : memory Z) : Prop :=
  (forall i, 0 <= i < Z.of_nat (length xs) -> znth false ks i = true ->
     number_at m' (a + i * Z.of_nat w) w (uval (znth (w0 w) xs i))) /\
  (forall b, (forall i, 0 <= i < Z.of_nat (length xs) -> znth false ks i = true ->
                ~ a + i * Z.of_nat w <= b < a + i * Z.of_nat w + Z.of_nat w) -> m' b = m b).
(** the selected entries of the array are valid memory *)
Definition writable (m : memory Z) (a : Z) (w : nat) (ks : list bool) : Prop :=
  forall i, 0 <= i < Z.of_nat (length ks) -> znth false ks i = true -> readable m (a + i * Z.of_nat w) w.
