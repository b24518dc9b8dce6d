(** simd_cast between the native vectors of an SSE and of an AVX build, Vc::Scalar vectors (with one entry) included,
    on lists of entries: sse/simd_cast.h:425-726, 840-872, scalar/simd_cast.h:39-72, avx/simd_cast.h:1612-2243,
    2520-2620.  The overloads between SSE and AVX vectors are those of SseConvert.v and AvxConvert.v. *)
From Coq Require Import ZArith List Bool Arith.
From Verif.Spec Require Import Seq.
From Verif.Model Require Import Word Fp FpArith SseReg SseMove SortNet SseInt SseBuild SseConvert AvxReg AvxMove AvxShuffle AvxBuild AvxConvert SimdArray ArrayCast.
Import ListNotations.
Local Open Scope Z_scope.

Definition is_signed_type (e : etype) : bool := match e with Short | Int => true | _ => false end.
Definition type_value (e : etype) (x : elt e) : Z := if is_signed_type e then sval x else uval x.
(** the numbers a variable of the integer type can hold *)
Definition holds (e : etype) (z : Z) : bool :=
  if is_signed_type e then (- 2 ^ (bits (esize e) - 1) <=? z) && (z <? 2 ^ (bits (esize e) - 1)) else (0 <=? z) && (z <? 2 ^ bits (esize e)).

(** The C++ conversion of one value.  [undef]: what the undefined conversion of a floating point number that the integer
    type cannot hold gives. *)
Definition static_cast (undef : Z) (from to : etype) (x : elt from) : elt to :=
  if is_integer to then
    if is_integer from then mkw (esize to) (type_value from x)
    else if negb (is_nan x) && negb (is_inf x) && holds to (round_int ToZero x) then mkw (esize to) (round_int ToZero x)
    else mkw (esize to) undef
  else if is_integer from then of_int (esize to) (type_value from x)
  else match from as f, to as t return elt f -> elt t with
       | Float, Double => to_double
       | Double, Float => to_float
       | Float, Float | Double, Double => fun x => x
       | _, t => fun _ => w0 (esize t)
       end x.

(** One argument of _mm_setr_pd, _mm_setr_ps, _mm_setr_epi32, _mm_setr_epi16 in sse/simd_cast.h:425-718 and
    avx/simd_cast.h:1612-2234: x.data() is converted to the parameter type; the parameters of _mm_setr_epi16 are
    signed, also where an ushort_v is returned (463-468); for uint_v there is an explicit conversion to uint (451). *)
Definition setr_argument (undef : Z) (from to : etype) (x : elt from) : elt to :=
  match to as t return elt t with
  | UShort => static_cast undef from Short x
  | t => static_cast undef from t x
  end.

Definition first_entry {e} (x : list (elt e)) : elt e := nth 0 x (w0 (esize e)).

Definition same_type (from to : etype) : bool :=
  match from, to with
  | Short, Short | UShort, UShort | Int, Int | UInt, UInt | Float, Float | Double, Double => true
  | _, _ => false
  end.

(** [argument]: how the overloads from Scalar vectors convert one argument, setr_argument *)
Section Sse.
  Context (undef : Z) (sse41 : bool) (from to : etype) (argument : elt from -> elt to).
  (** simd_cast<To>(x...): to Scalar vectors scalar/simd_cast.h:39-44, sse/simd_cast.h:721-726; from Scalar vectors
      sse/simd_cast.h:425-718, the overloads with one to To::Size arguments *)
  Definition sse_cast_many_with (m : nat) (xs : list (list (elt from))) : option (list (elt to)) :=
    if Nat.eqb m 1 then match xs with [x] => Some [static_cast undef from to (first_entry x)] | _ => None end
    else if Nat.eqb (length (hd [] xs)) 1 then
      if Nat.leb (length xs) m then Some (map argument (concat xs) ++ repeat (w0 (esize to)) (m - length xs)) else None
    else option_map (lanes (esize to)) (simd_cast sse41 from to (map pack xs)).
  (** simd_cast<To, offset>(x): scalar/simd_cast.h:55-61 (Return(x[offset])), 63-72, sse/simd_cast.h:840-872 *)
  Definition sse_cast_offset (m k : nat) (x : list (elt from)) : option (list (elt to)) :=
    if Nat.eqb m 1 then Some [static_cast undef from to (nth k x (w0 (esize from)))]
    else if Nat.eqb (length x) 1 then
      if Nat.eqb k 0 then Some (static_cast undef from to (first_entry x) :: repeat (w0 (esize to)) (m - 1)) else None
    else option_map (lanes (esize to)) (simd_cast_offset sse41 from to k (pack x)).
  Definition sse_casts_with : cast_ops (elt from) (elt to) :=
    {| c_many := sse_cast_many_with; c_offset := sse_cast_offset; c_entry := static_cast undef from to; c_same := same_type from to |}.
End Sse.
Definition sse_casts undef sse41 from to := sse_casts_with undef sse41 from to (setr_argument undef from to).

(** AVX builds; [upper]: the upper half that zeroExtend leaves (AvxMove.v) *)
Section Avx.
  Context (undef : Z) (upper : reg) (avx2 : bool) (from to : etype) (argument : elt from -> elt to).
  Definition is256 (e : etype) (n : nat) : bool := Nat.eqb n (32 / esize e).
  (** avx/simd_cast.h:1612-2234: up to two double, up to four float arguments are put in an SSE register first *)
  Definition scalars_to_avx (xs : list (list (elt from))) : option (list (elt to)) :=
    let m := (32 / esize to)%nat in
    if Nat.leb (length xs) m then
      let entries := map argument (concat xs) ++ repeat (w0 (esize to)) (m - length xs) in
      if negb (is_integer to) && Nat.leb (2 * length xs) m then Some (ylanes (esize to) (zeroExtend upper (pack (firstn (16 / esize to) entries))))
      else Some entries
    else None.
  Definition avx_cast_many_with (m : nat) (xs : list (list (elt from))) : option (list (elt to)) :=
    let w := length (hd [] xs) in
    if Nat.eqb m 1 then match xs with [x] => Some [static_cast undef from to (first_entry x)] | _ => None end
    else if Nat.eqb w 1 then if is256 to m then scalars_to_avx xs else sse_cast_many_with undef true from to argument m xs
    else match is256 from w, is256 to m with
         | true, true => option_map (ylanes (esize to)) (ycast upper avx2 from to (map ypack xs))
         | true, false => option_map (lanes (esize to)) (yxcast upper avx2 from to (map ypack xs))
         | false, true => option_map (ylanes (esize to)) (xycast upper avx2 from to (map pack xs))
         | false, false => option_map (lanes (esize to)) (xcast from to (map pack xs))
         end.
  (** 2525-2620; offset 0: simd_cast<To>(x) *)
  Definition avx_cast_offset (m k : nat) (x : list (elt from)) : option (list (elt to)) :=
    let w := length x in
    if Nat.eqb m 1 then Some [static_cast undef from to (nth k x (w0 (esize from)))]
    else if Nat.eqb w 1 then
      if Nat.eqb k 0 then Some (static_cast undef from to (first_entry x) :: repeat (w0 (esize to)) (m - 1)) else None
    else if Nat.eqb k 0 then avx_cast_many_with m [x]
    else match is256 from w, is256 to m with
         | true, true => option_map (ylanes (esize to)) (ycast_offset upper avx2 from to k (ypack x))
         | true, false => option_map (lanes (esize to)) (yxcast_offset avx2 from to k (ypack x))
         | false, true => option_map (ylanes (esize to)) (xycast_offset upper avx2 from to k (pack x))
         | false, false => option_map (lanes (esize to)) (simd_cast_offset true from to k (pack x))
         end.
  Definition avx_casts_with : cast_ops (elt from) (elt to) :=
    {| c_many := avx_cast_many_with; c_offset := avx_cast_offset; c_entry := static_cast undef from to; c_same := same_type from to |}.
End Avx.
Definition avx_casts undef upper avx2 from to := avx_casts_with undef upper avx2 from to (setr_argument undef from to).
