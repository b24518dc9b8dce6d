(** sqrt, rsqrt and reciprocal *)
From Coq Require Import ZArith Reals List Bool Lia Lra.
From Verif.Spec Require Import Seq FloatSpec AccuracySpec RootSpec.
From Verif.Model Require Import Word Fp FpArith SimdArray SimdArrayOps Transcend ScalarMath ArrayMath Roots.
Import ListNotations.
Local Open Scope R_scope.
From Verif.Proof Require RootsMain.

(** sqrt of every entry of a SimdArray of every size, in every build, is the square root of IEEE-754: no float (double) is nearer to the real square root. *)
Theorem C84_sqrt :
  forall b w n (t : sa (word w)), w = 4%nat \/ w = 8%nat -> wf (math_native b w) n t ->
    Forall2 sqrt_of (to_list t) (to_list (a_sqrt b w t)).
Proof. exact RootsMain.C84_sqrt_main. Qed.
Print Assumptions C84_sqrt.

Example C84_sqrt_ex :
  let t := @generate (word 4) (math_native MAvx 4) 13 (fun i => of_int 4 (i * i)) in
  wf (math_native MAvx 4) 13 t /\ map fvalue (to_list (a_sqrt MAvx 4 t)) = map (fun i => fvalue (of_int 4 i)) [0; 1; 2; 3; 4; 5; 6; 7; 8; 9; 10; 11; 12]%Z /\
  uval (hd (w0 4) (to_list (a_sqrt MAvx 4 (Leaf [of_int 4 2])))) = 0x3fb504f3%Z.
Proof.
  intros t. split; [apply ArrayMathMain.generated; [auto|lia]|]. split; vm_compute; reflexivity.
Qed.

(** and the result is the same bit pattern in every build and at every position. *)
Theorem C84_sqrt_builds_agree :
  forall b b' w n n' (t t' : sa (word w)) i j, w = 4%nat \/ w = 8%nat -> wf (math_native b w) n t -> wf (math_native b' w) n' t' ->
    (i < n)%nat -> (j < n')%nat -> nth i (to_list t) (w0 w) = nth j (to_list t') (w0 w) ->
    nth i (to_list (a_sqrt b w t)) (w0 w) = nth j (to_list (a_sqrt b' w t')) (w0 w).
Proof. exact RootsMain.C84_sqrt_builds_agree_main. Qed.
Print Assumptions C84_sqrt_builds_agree.

Example C84_sqrt_builds_agree_ex :
  let t := @generate (word 8) (math_native MAvx 8) 7 (fun i => of_int 8 (7 - i)) in let t' := @generate (word 8) (math_native MScalar 8) 2 (fun i => of_int 8 (1 + i)) in
  wf (math_native MAvx 8) 7 t /\ wf (math_native MScalar 8) 2 t' /\ nth 5 (to_list t) (w0 8) = nth 1 (to_list t') (w0 8) /\
  uval (nth 5 (to_list (a_sqrt MAvx 8 t)) (w0 8)) = 0x3ff6a09e667f3bcd%Z /\ uval (nth 1 (to_list (a_sqrt MScalar 8 t')) (w0 8)) = 0x3ff6a09e667f3bcd%Z.
Proof.
  intros t t'. split; [apply ArrayMathMain.generated; [auto|lia]|]. split; [apply ArrayMathMain.generated; [auto|lia]|]. split; [reflexivity|split; vm_compute; reflexivity].
Qed.

(** reciprocal of float entries, in every build and on every processor that does what its manual says: 1/x with a relative error of at most 1.5 * 2 ^ -12 if 2 ^ -126 <= |x| <= 2 ^ 125; infinity for zero, zero for infinity and NaN for NaN, with the sign of x. *)
Theorem C84_reciprocal_float :
  forall h b n (t : sa (word 4)), (forall x, rcp_manual x (rcp h x)) -> wf (math_native b 4) n t ->
    Forall2 (reciprocal_of (2 ^ 125) (fun y r => relative y r approx_error)) (to_list t) (to_list (a_reciprocal h b 4 t)).
Proof. exact RootsMain.C84_reciprocal_float_main. Qed.
Print Assumptions C84_reciprocal_float.

Example C84_reciprocal_float_ex :
  exists h, (forall x, rcp_manual x (rcp h x)) /\ let t := @generate (word 4) (math_native (MSse true) 4) 5 (fun i => of_int 4 (i * 3)) in
    wf (math_native (MSse true) 4) 5 t /\ map uval (to_list (a_reciprocal h (MSse true) 4 t)) = [0x7f800000; 0x3eaaaaab; 0x3e2aaaab; 0x3de38e39; 0x3daaaaab]%Z.
Proof.
  exists RootsMain.exact_approx. split; [apply RootsMain.exact_rcp|]. intros t. split; [apply ArrayMathMain.generated; [auto|lia]|]. vm_compute; reflexivity.
Qed.

(** reciprocal of double entries in every build, and of float entries in the Scalar build: no other value is nearer to 1/x, for every finite x that is not tiny. *)
Theorem C84_reciprocal_exact :
  forall h b w n (t : sa (word w)) hi, w = 8%nat \/ w = 4%nat /\ b = MScalar -> wf (math_native b w) n t ->
    Forall2 (reciprocal_of hi nearest_real) (to_list t) (to_list (a_reciprocal h b w t)).
Proof. exact RootsMain.C84_reciprocal_exact_main. Qed.
Print Assumptions C84_reciprocal_exact.

Example C84_reciprocal_exact_ex :
  let t := @generate (word 8) (math_native MAvx 8) 7 (fun i => of_int 8 (i - 3)) in
  wf (math_native MAvx 8) 7 t /\ forall h, map uval (to_list (a_reciprocal h MAvx 8 t)) =
    [0xbfd5555555555555; 0xbfe0000000000000; 0xbff0000000000000; 0x7ff0000000000000; 0x3ff0000000000000; 0x3fe0000000000000; 0x3fd5555555555555]%Z.
Proof.
  intros t. split; [apply ArrayMathMain.generated; [auto|lia]|]. intros h. vm_compute; reflexivity.
Qed.

(** rsqrt of float entries, in every build and on every processor that does what its manual says: 1/sqrt(x) with a relative error of at most 1.5 * 2 ^ -12 for every normal positive x; NaN for NaN and negative entries, infinity for zero, zero for infinity. *)
Theorem C84_rsqrt_float :
  forall h b n (t : sa (word 4)), (forall x, rsqrt_manual x (rsq h x)) -> wf (math_native b 4) n t ->
    Forall2 (rsqrt_of (fun y r => relative y r approx_error)) (to_list t) (to_list (a_rsqrt h b 4 t)).
Proof. exact RootsMain.C84_rsqrt_float_main. Qed.
Print Assumptions C84_rsqrt_float.

Example C84_rsqrt_float_ex :
  exists h, (forall x, rsqrt_manual x (rsq h x)) /\ let t := @generate (word 4) (math_native (MSse true) 4) 5 (fun i => of_int 4 (i * 4 - 4)) in
    wf (math_native (MSse true) 4) 5 t /\ map uval (to_list (a_rsqrt h (MSse true) 4 t)) = [0xffc00000; 0x7f800000; 0x3f000000; 0x3eb504f3; 0x3e93cd3a]%Z.
Proof.
  exists RootsMain.exact_approx. split; [apply RootsMain.exact_rsq|]. intros t. split; [apply ArrayMathMain.generated; [auto|lia]|]. vm_compute; reflexivity.
Qed.

(** rsqrt of double entries in every build (relative error at most 2 ^ -51), and of float entries in the Scalar build (at most 2 ^ -22); every negative value gives NaN. *)
Theorem C84_rsqrt_exact :
  forall h b w n (t : sa (word w)), w = 8%nat \/ w = 4%nat /\ b = MScalar -> wf (math_native b w) n t ->
    Forall2 (fun x y => rsqrt_of (fun y r => relative y r (if (w =? 8)%nat then / 2 ^ 51 else / 2 ^ 22)) x y /\ (is_NaN x = false -> (fvalue x < 0)%Z -> is_NaN y = true))
      (to_list t) (to_list (a_rsqrt h b w t)).
Proof. exact RootsMain.C84_rsqrt_exact_main. Qed.
Print Assumptions C84_rsqrt_exact.

Example C84_rsqrt_exact_ex :
  let t := @generate (word 8) (math_native MAvx 8) 7 (fun i => of_int 8 (i - 1)) in
  wf (math_native MAvx 8) 7 t /\ forall h, map uval (to_list (a_rsqrt h MAvx 8 t)) =
    [0xfff8000000000000; 0x7ff0000000000000; 0x3ff0000000000000; 0x3fe6a09e667f3bcc; 0x3fe279a74590331d; 0x3fe0000000000000; 0x3fdc9f25c5bfedd9]%Z.
Proof.
  intros t. split; [apply ArrayMathMain.generated; [auto|lia]|]. intros h. vm_compute; reflexivity.
Qed.

(** The result of reciprocal depends on the position of an entry: in the SSE build, on every processor that does what its manual says, reciprocal of a SimdArray<float, 5> whose entries all are 2 ^ -127 is infinity in entry 0 and 2 ^ 127, the exact result, in entry 4. *)
Theorem C84_position_refuted :
  exists t : sa (word 4), wf (math_native (MSse true) 4) 5 t /\ (exists x, to_list t = repeat x 5 /\ real x = / 2 ^ 127) /\
    forall h, (forall x, rcp_manual x (rcp h x)) ->
      is_Inf (nth 0 (to_list (a_reciprocal h (MSse true) 4 t)) (w0 4)) = true /\
      is_Finite (nth 4 (to_list (a_reciprocal h (MSse true) 4 t)) (w0 4)) = true /\ real (nth 4 (to_list (a_reciprocal h (MSse true) 4 t)) (w0 4)) = 2 ^ 127.
Proof. exact RootsMain.C84_position_refuted_main. Qed.
Print Assumptions C84_position_refuted.
