(** Types and values of binary operators with operands of different types. *)
From Coq Require Import ZArith List Bool.
From Verif.Spec Require Import OperatorSpec.
Import ListNotations.
Local Open Scope Z_scope.

Section Types.
  Variable ls : Z.
  Notation size := (size_of ls).

  (** traits/type_traits.h:64-71 is_valid_vector_argument: the entry types of vectors *)
  Definition is_valid_vector_argument (t : ctype) : bool :=
    match t with Double | Float | Int | Uint | Short | Ushort => true | _ => false end.

  (** common/operators.h:64-68 my_make_signed *)
  Definition my_make_signed (t : ctype) : ctype :=
    match t with Uchar => Schar | Ushort => Short | Uint => Int | Ulong => Long | Ullong => Llong | _ => t end.
  Definition same (a b : ctype) : bool :=
    match a, b with
    | Bool, Bool | Schar, Schar | Uchar, Uchar | Short, Short | Ushort, Ushort | Int, Int | Uint, Uint | Long, Long | Ulong, Ulong
    | Llong, Llong | Ullong, Ullong | Float, Float | Double, Double => true
    | _, _ => false
    end.
  (** common/operators.h:70-85 higher_conversion_rank; two bools give void, None *)
  Definition higher_conversion_rank (tt uu : ctype) : option ctype :=
    let t := my_make_signed tt in let u := my_make_signed uu in
    let fix_sign a := if is_unsigned tt || is_unsigned uu then unsigned_of a else a in
    let c test otherwise := if same t test || same u test then Some test else otherwise in
    option_map fix_sign (c Llong (c Long (c Int (c Short (c Schar None))))).
  (** common/operators.h:41-93 FundamentalReturnType *)
  Definition fundamental_return (t u : ctype) : option ctype :=
    match is_float t, is_float u with
    | false, false => if size u <? size t then Some t else if size t <? size u then Some u else higher_conversion_rank t u
    | false, true => Some u
    | true, false => Some t
    | true, true => Some (if size t <? size u then u else t)
    end.
  Definition if_valid (r : option ctype) : option ctype :=
    match r with Some t => if is_valid_vector_argument t then r else None | None => None end.
  (** common/operators.h:104-129 ReturnTypeImpl for scalars *)
  Definition return_type_scalar (t u : ctype) : option ctype :=
    match u with
    | Int => Some t
    | Uint => Some (if is_float t then t else unsigned_of t)
    | _ => if_valid (fundamental_return t u)
    end.
  (** traits/is_implicit_cast_allowed.h:35-46: the implicit conversions between Vector types
      (avx/vector.h:142-152 and the like).  fixed_size vectors inherit the constructors of SimdArray, which convert all types
      (simdarray.h:168-193, 846-900). *)
  Definition is_implicit_cast_allowed (from to : ctype) : bool :=
    same from to || (negb (is_float from) && negb (is_float to) && (same (unsigned_of from) to || same (my_make_signed from) to)).
  Definition convertible (fixed : bool) (from to : ctype) : bool := fixed || is_implicit_cast_allowed from to.

  (** operators.h:158-190, 225-245: the entry type of the result (for compares: that of the mask and in which is compared) of an
      operator with a vector of T and a scalar of type U in any order, None if the overload does not take part.  Scalars convert
      to all vector types.  Not modelled: Vc_TEST_FOR_BUILTIN_OPERATOR, which rejects bit operators of floats. *)
  Definition generic_scalar (fixed : bool) (t u : ctype) : option ctype :=
    match return_type_scalar t u with Some r => if convertible fixed t r then Some r else None | None => None end.
  (** ReturnTypeImpl for two vectors of the same Abi (99-102) *)
  Definition generic_vectors (fixed : bool) (t u : ctype) : option ctype :=
    match fundamental_return t u with Some r => if convertible fixed t r && convertible fixed u r then Some r else None | None => None end.

  (** simdarray.h:1635-1639 is_integer_larger_than_int *)
  Definition is_integer_larger_than_int (t : ctype) : bool :=
    negb (is_float t) && ((size Int <? size t) || same t Long || same t Ulong).
  (** simdarray.h:1676-1685 the entry type; the type of declval<L>() + declval<R>() is that of the language *)
  Definition evaluate (l r : ctype) : ctype :=
    if negb (is_float l) && negb (is_float r) && (size l <? size Int) && (size r <? size Int) then
      if size l =? size r then (if is_unsigned l then l else r)
      else if size r <? size l then l else r
    else usual ls l r.
  (** simdarray.h:1641-1658: SimdArray<T, N> (not the derived fixed_size vector) with a scalar, and with another vector of N
      entries *)
  Definition array_scalar (t u : ctype) : option ctype := if is_integer_larger_than_int u then None else Some (evaluate t u).
  Definition array_vectors (t u : ctype) : option ctype := Some (evaluate t u).

  (** The kinds of vector operands: native Vector<T, Abi>; SimdArray<T, N>; Vector<T, fixed_size<N>>, which is derived from
      SimdArray<T, N> and is what operators of SimdArrays return. *)
  Inductive kind := Native | Array | Fixed.
  (** Overload resolution of vector op scalar and scalar op vector.  For a fixed_size vector both overloads take part; their
      conversions are equally good, and that of operators.h, whose parameter is a Vector<T, Abi>, is more specialized. *)
  Definition with_scalar (k : kind) (t u : ctype) : option ctype :=
    match k with
    | Native => generic_scalar false t u
    | Array => array_scalar t u
    | Fixed => match generic_scalar true t u with Some r => Some r | None => array_scalar t u end
    end.
  (** both operands vectors of the same size: if both are native of the same Abi or both fixed_size operators.h decides,
      otherwise simdarray.h:1641-1658 *)
  Definition with_vector (k k' : kind) (t u : ctype) : option ctype :=
    match k, k' with
    | Native, Native => generic_vectors false t u
    | Fixed, Fixed => generic_vectors true t u
    | _, _ => array_vectors t u
    end.

  (** * Values
      operators.h:167, 178, 233, 244; simdarray.h:1700-1702, 1733: both operands are converted to the result type, entry by entry,
      and the operator of that type is applied to the entries (C02; integer operations of vectors wrap around). *)
  Definition vector_value (o : arith) (r : ctype) (x y : Z) : Z := to ls r (exact o (to ls r x) (to ls r y)).
  Definition vector_related (c : comparison_op) (r : ctype) (x y : Z) : bool := related c (to ls r x) (to ls r y).
End Types.
