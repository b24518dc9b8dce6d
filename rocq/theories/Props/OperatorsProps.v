(** types and values of binary operators with operands of different types *)
From Coq Require Import ZArith List Bool Lia.
From Verif.Spec Require Import OperatorSpec.
From Verif.Model Require Import Operators.
Import ListNotations.
Local Open Scope Z_scope.
From Verif.Proof Require OperatorsMain.

(** C68: an operator of a native vector with entries T and a scalar of type U, if it compiles, has entries of type T or the unsigned
counterpart of T.  For T of at least the size of int it compiles exactly if the usual arithmetic conversions of C++ for T and U
give T or the unsigned counterpart, and then gives that type.  For short and unsigned short it compiles for all integer scalars
that are not larger than int, and gives unsigned short if T is unsigned or the scalar is of type unsigned short or unsigned int. *)
Theorem C68_native_types :
  forall ls t u, long_size_ok ls -> is_valid_vector_argument t = true ->
    (forall r, with_scalar ls Native t u = Some r -> r = t \/ r = unsigned_of t) /\
    (4 <= size_of ls t -> forall r, with_scalar ls Native t u = Some r <-> r = usual ls t u /\ (r = t \/ r = unsigned_of t)) /\
    (size_of ls t < 4 -> forall r, with_scalar ls Native t u = Some r <->
       In u [Bool; Schar; Uchar; Short; Ushort; Int; Uint] /\ r = if is_unsigned t then t else match u with Ushort | Uint => unsigned_of t | _ => t end).
Proof. exact OperatorsMain.C68_native_types_main. Qed.
Print Assumptions C68_native_types.

Example C68_native_types_ex :
  with_scalar 8 Native Int Ushort = Some Int /\ with_scalar 8 Native Int Uint = Some Uint /\ with_scalar 8 Native Int Long = None /\ with_scalar 8 Native Float Int = Some Float /\
  with_scalar 8 Native Float Double = None /\ with_scalar 4 Native Short Uint = Some Ushort.
Proof.
  repeat split.
Qed.

(** C68: an operator of a SimdArray with entries T and a scalar compiles unless the scalar is an integer larger than int (or of type
long), and has the type of the usual arithmetic conversions; but if both types are smaller than int the result has T's size, and
is unsigned exactly if T or a scalar of that size is.  With two vectors of which one is a SimdArray the same holds, and the type
does not depend on the order. *)
Theorem C68_array_types :
  forall ls t u, long_size_ok ls -> is_valid_vector_argument t = true ->
    (In u [Long; Ulong; Llong; Ullong] -> with_scalar ls Array t u = None) /\
    (~ In u [Long; Ulong; Llong; Ullong] -> is_float t || is_float u = true \/ 4 <= size_of ls t \/ 4 <= size_of ls u -> with_scalar ls Array t u = Some (usual ls t u)) /\
    (is_float u = false -> size_of ls t < 4 -> size_of ls u < 4 -> with_scalar ls Array t u = Some (if is_unsigned t then t else match u with Ushort => Ushort | _ => t end)) /\
    (is_valid_vector_argument u = true -> forall k k', k = Array \/ k' = Array ->
       with_vector ls k k' t u = with_scalar ls Array t u /\ with_vector ls k k' t u = with_vector ls k' k u t).
Proof. exact OperatorsMain.C68_array_types_main. Qed.
Print Assumptions C68_array_types.

Example C68_array_types_ex :
  with_scalar 8 Array Short Int = Some Int /\ with_scalar 8 Array Short Ushort = Some Ushort /\ with_vector 8 Array Native Ushort Int = Some Int /\ with_scalar 8 Array Int Double = Some Double.
Proof.
  repeat split.
Qed.

(** C68: two native vectors of different types combine exactly if they are the signed and the unsigned integers of one size, and give
the unsigned type; two fixed_size vectors always do, with the type that SimdArrays give.  The order does not matter. *)
Theorem C68_vectors :
  forall ls t u, long_size_ok ls -> is_valid_vector_argument t = true -> is_valid_vector_argument u = true ->
    (forall r, with_vector ls Native Native t u = Some r <-> unsigned_of t = unsigned_of u /\ r = if is_unsigned u then u else t) /\
    with_vector ls Native Native t u = with_vector ls Native Native u t /\
    with_vector ls Fixed Fixed t u = with_vector ls Array Array t u /\ with_vector ls Fixed Fixed t u = with_vector ls Fixed Fixed u t.
Proof. exact OperatorsMain.C68_vectors_main. Qed.
Print Assumptions C68_vectors.

Example C68_vectors_ex :
  with_vector 8 Native Native Short Ushort = Some Ushort /\ with_vector 8 Native Native Int Float = None /\ with_vector 8 Fixed Fixed Int Float = Some Float.
Proof.
  repeat split.
Qed.

(** C68: an operator of a fixed_size vector, what operators of SimdArrays return, and a scalar gives the type it gives for a
SimdArray, for T of at least the size of int and scalars that are not larger than int.  Not for short (see the refutation). *)
Theorem C68_fixed_partial :
  forall ls t u, long_size_ok ls -> is_valid_vector_argument t = true -> 4 <= size_of ls t -> ~ In u [Long; Ulong; Llong; Ullong] ->
    with_scalar ls Fixed t u = with_scalar ls Array t u.
Proof. exact OperatorsMain.C68_fixed_partial_main. Qed.
Print Assumptions C68_fixed_partial.

Example C68_fixed_partial_ex :
  ~ In Float [Long; Ulong; Llong; Ullong] /\ with_scalar 8 Fixed Int Float = Some Float.
Proof.
  split; [|reflexivity]. cbn. intuition discriminate.
Qed.

(** Not for short: a + 1 has entries of type int if a is a SimdArray<short, N>, but (a + a) + 1 has entries of type short, because a + a
is a fixed_size vector; with an unsigned int the types are unsigned int and unsigned short.  So with short entries 32767 the
entries of (a + 0) + 1 and a + 1 differ by more than the type. *)
Theorem C68_fixed_refuted :
  with_vector 8 Array Array Short Short = Some Short /\ with_scalar 8 Array Short Int = Some Int /\ with_scalar 8 Fixed Short Int = Some Short /\
  with_scalar 8 Array Short Uint = Some Uint /\ with_scalar 8 Fixed Short Uint = Some Ushort /\
  vector_value 8 Add Int 32767 1 = 32768 /\ vector_value 8 Add Short 32767 1 = -32768.
Proof. exact OperatorsMain.C68_fixed_refuted_main. Qed.
Print Assumptions C68_fixed_refuted.

(** C68: for integer types every entry of x op y, with op one of + - * & | ^, for any kind of vector and either order of the operands,
is the value of the C++ expression with the entry and the scalar (or the two entries), converted to the type of the result. *)
Theorem C68_values :
  forall ls k k' o t u r x y, long_size_ok ls -> is_valid_vector_argument t = true -> is_float t = false -> is_float u = false ->
    with_scalar ls k t u = Some r \/ (is_valid_vector_argument u = true /\ with_vector ls k k' t u = Some r) ->
    vector_value ls o r x y = to ls r (cxx_value ls o t u x y) /\ vector_value ls o r y x = to ls r (cxx_value ls o u t y x).
Proof. exact OperatorsMain.C68_values_main. Qed.
Print Assumptions C68_values.

Example C68_values_ex :
  with_scalar 8 Native Short Uint = Some Ushort /\ vector_value 8 Sub Ushort (-3) 5 = 65528 /\ cxx_value 8 Sub Short Uint (-3) 5 = 4294967288 /\ to 8 Ushort 4294967288 = 65528.
Proof.
  repeat split.
Qed.

(** C68: a comparison with integers is the mathematical one if the type in which it is done holds both operands; and it is the C++
comparison of the entry and the scalar whenever that type is the one of the usual arithmetic conversions.  Not in general for
short (see the refutation). *)
Theorem C68_compares_partial :
  forall ls k c t u r x y, long_size_ok ls -> is_valid_vector_argument t = true -> is_float t = false -> is_float u = false -> with_scalar ls k t u = Some r ->
    (holds ls r x -> holds ls r y -> vector_related ls c r x y = related c x y) /\
    (4 <= size_of ls t -> vector_related ls c r x y = cxx_related ls c t u x y).
Proof. exact OperatorsMain.C68_compares_partial_main. Qed.
Print Assumptions C68_compares_partial.

Example C68_compares_partial_ex :
  with_scalar 8 Native Ushort Int = Some Ushort /\ holds 8 Ushort 65535 /\ holds 8 Ushort 70 /\ vector_related 8 Lt Ushort 70 65535 = true.
Proof.
  vm_compute. repeat split; discriminate.
Qed.

(** Not for short and scalars it does not hold: ushort_v(65535) == -1 and short_v(0) == 65536 are true for all entries,
although the C++ comparisons 65535 == -1 and 0 == 65536 are false. *)
Theorem C68_compares_refuted :
  with_scalar 8 Native Ushort Int = Some Ushort /\ vector_related 8 Eq Ushort 65535 (-1) = true /\ cxx_related 8 Eq Ushort Int 65535 (-1) = false /\
  with_scalar 8 Native Short Int = Some Short /\ vector_related 8 Eq Short 0 65536 = true /\ cxx_related 8 Eq Short Int 0 65536 = false.
Proof. exact OperatorsMain.C68_compares_refuted_main. Qed.
Print Assumptions C68_compares_refuted.
