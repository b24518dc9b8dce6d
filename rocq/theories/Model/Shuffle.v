(** The blends of Mem:: and the Reg:: helpers of Vc/sse/shuffle.h (the other Mem:: functions are in
    SseMove.v), and Vc::transpose.

    Mem::f<Dst0, Dst1, ...> lists the positions in memory order, Reg::f<..., Dst1, Dst0> in register
    order.  The static_asserts on the template arguments are hypotheses of the theorems. *)
From Coq Require Import ZArith List Bool.
From Verif.Spec Require Import Seq.
From Verif.Model Require Import Word SseReg SseMove SimdArray SseInt.
Import ListNotations.

(** sse/shuffle.h:67-71 *)
Definition mem_blend_pd (sse41 : bool) (d0 d1 : nat) (x y : reg) : option reg :=
  blend_pd sse41 (d0 / 8 + (d1 / 8) * 2) x y.
(** sse/shuffle.h:74-81 *)
Definition mem_blend_ps (sse41 : bool) (d0 d1 d2 d3 : nat) (x y : reg) : option reg :=
  blend_ps sse41 (d0 / 8 * 1 + d1 / 9 * 2 + d2 / 10 * 4 + d3 / 11 * 8) x y.
(** sse/shuffle.h:83-97 *)
Definition mem_blend_epi16 (sse41 : bool) (d0 d1 d2 d3 d4 d5 d6 d7 : nat) (x y : reg) : reg :=
  blend_epi16 sse41 (Z.of_nat (d0 / 8 * 1 + d1 / 9 * 2 + d2 / 10 * 4 + d3 / 11 * 8 +
                               d4 / 12 * 16 + d5 / 13 * 32 + d6 / 14 * 64 + d7 / 15 * 128)) x y.

(** sse/shuffle.h:150-152 (__m128), 167-171 (__m128i) *)
Definition reg_shuffle4 (d3 d2 d1 d0 : nat) (x y : reg) : reg := mem_shuffle4 8 d0 d1 d2 d3 x y.
(** sse/shuffle.h:155-157 *)
Definition reg_shuffle2 (d1 d0 : nat) (x y : reg) : reg := mem_shuffle2 8 d0 d1 x y.
(** sse/shuffle.h:160-164 *)
Definition reg_permute_epi32 (d3 d2 d1 d0 : nat) (x : reg) : reg :=
  shuffle_epi32 8 x (d0 + d1 * 4 + d2 * 16 + d3 * 64).
(** sse/shuffle.h:174-180 *)
Definition reg_blend_pd (sse41 : bool) (d1 d0 : nat) (x y : reg) : option reg := mem_blend_pd sse41 d0 d1 x y.
Definition reg_blend_ps (sse41 : bool) (d3 d2 d1 d0 : nat) (x y : reg) : option reg :=
  mem_blend_ps sse41 d0 d1 d2 d3 x y.

(** sse/vector.tcc:731-752 float_v::operator[](int_v): a permutation in AVX builds (_mm_permutevar_ps
    uses the low two bits of every index), the vector itself otherwise *)
Definition v_permute (avx : bool) (r perm : reg) : reg :=
  if avx then pack (map (fun i => nth (Z.to_nat (uval i mod 4)%Z) (lanes 4 r) (w0 4)) (lanes 4 perm)) else r.

(** sse/vector.tcc:769-785 transpose_impl(TransposeTag<4, 4>) of float_v: *r[0] .. *r[3] *)
Definition transpose_ps (in0 in1 in2 in3 : reg) : list reg :=
  let tmp0 := unpacklo 8 4 in0 in2 in
  let tmp1 := unpacklo 8 4 in1 in3 in
  let tmp2 := unpackhi 8 4 in0 in2 in
  let tmp3 := unpackhi 8 4 in1 in3 in
  [unpacklo 8 4 tmp0 tmp1; unpackhi 8 4 tmp0 tmp1; unpacklo 8 4 tmp2 tmp3; unpackhi 8 4 tmp2 tmp3].

(** common/simdarray.h:2580-2593 atomic SimdArrays: the native transpose.  scalar/vector.tcc:225-229
    (one by one) is the identity. *)
Definition transpose_atomic {A} (native : list A -> list A -> list A -> list A -> list (list A))
    (x0 x1 x2 x3 : sa A) : option (list (sa A)) :=
  match x0, x1, x2, x3 with
  | Leaf a, Leaf b, Leaf c, Leaf d => Some (map Leaf (native a b c d))
  | _, _, _, _ => None
  end.
(** common/simdarray.h:2595-2611 transpose_impl(TransposeTag<2, 4>): four inputs of two Scalar
    entries, the two outputs lo = *r[0], hi = *r[1] *)
Definition transpose_2x4 {A} (x0 x1 x2 x3 : sa A) : option (list (sa A)) :=
  match x0, x1, x2, x3 with
  | Node a0 a1, Node b0 b1, Node c0 c1, Node d0 d1 =>
      Some [Node (Node a0 b0) (Node c0 d0); Node (Node a1 b1) (Node c1 d1)]
  | _, _, _, _ => None
  end.
(** common/simdarray.h:2628-2647 transpose_impl(TransposeTag<4, 4>) of SimdArray<T, 4, V, 1> *)
Definition transpose_4x4 {A} (x0 x1 x2 x3 : sa A) : option (list (sa A)) :=
  match x0, x1, x2, x3 with
  | Node a0 a1, Node b0 b1, Node c0 c1, Node d0 d1 =>
      r0 <-- transpose_2x4 a0 b0 c0 d0; r1 <-- transpose_2x4 a1 b1 c1 d1; Some (r0 ++ r1)
  | _, _, _, _ => None
  end.
