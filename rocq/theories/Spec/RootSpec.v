(** Square roots, reciprocals and reciprocal square roots of floats and doubles as real numbers. *)
From Coq Require Import ZArith Reals List.
From Verif.Spec Require Import FloatSpec RoundSpec AccuracySpec.
From Verif.Model Require Import Word.
Local Open Scope R_scope.

(** no finite value is nearer to [r] than [y] *)
Definition nearest_real {w} (y : word w) (r : R) : Prop :=
  is_Finite y = true /\ forall z : word w, is_Finite z = true -> Rabs (real y - r) <= Rabs (real z - r).
(** [y] is finite and its relative error is at most [e] *)
Definition relative {w} (y : word w) (r e : R) : Prop := accurate y r (e * Rabs r).
(** +-0 and +-infinity with the sign of [x] *)
Definition signed_zero {w} (x y : word w) : Prop := is_Finite y = true /\ fvalue y = 0%Z /\ sign_bit y = sign_bit x.
Definition signed_inf {w} (x y : word w) : Prop := is_Inf y = true /\ sign_bit y = sign_bit x.
(** |x| is less than the smallest normal number (2 ^ -126, 2 ^ -1022), |x| is not *)
Definition tiny {w} (x : word w) : Prop := (Z.abs (fvalue x) < fvalue (smallest_normal w))%Z.
Definition not_tiny {w} (x : word w) : Prop := (fvalue (smallest_normal w) <= Z.abs (fvalue x))%Z.

(** [y] is the square root of [x] of IEEE-754 *)
Definition sqrt_of {w} (x y : word w) : Prop :=
  (is_NaN x = true -> is_NaN y = true) /\
  (is_NaN x = false -> (fvalue x < 0)%Z -> is_NaN y = true) /\
  (is_Inf x = true -> sign_bit x = false -> y = x) /\
  (fvalue x = 0%Z -> y = x) /\
  (is_Finite x = true -> (0 <= fvalue x)%Z -> nearest_real y (sqrt (real x))).
(** [y] stands for 1 / x; [good] says how well if x is finite, not tiny and at most [hi] *)
Definition reciprocal_of {w} (hi : R) (good : word w -> R -> Prop) (x y : word w) : Prop :=
  (is_NaN x = true -> is_NaN y = true) /\
  (is_Inf x = true -> signed_zero x y) /\
  (fvalue x = 0%Z -> signed_inf x y) /\
  (is_Finite x = true -> not_tiny x -> Rabs (real x) <= hi -> good y (/ real x)).
(** [y] stands for 1 / sqrt x *)
Definition rsqrt_of {w} (good : word w -> R -> Prop) (x y : word w) : Prop :=
  (is_NaN x = true -> is_NaN y = true) /\
  (is_NaN x = false -> not_tiny x -> sign_bit x = true -> is_NaN y = true) /\
  (is_Inf x = true -> sign_bit x = false -> signed_zero x y) /\
  (fvalue x = 0%Z -> signed_inf x y) /\
  (is_Finite x = true -> not_tiny x -> sign_bit x = false -> good y (/ sqrt (real x))).

(** the relative error the processor manuals promise for rcpps and rsqrtps *)
Definition approx_error : R := 3 / 2 / 2 ^ 12.
(** The processor manuals' description of rcpps and rsqrtps for one float: tiny arguments are taken as zero. *)
Definition rcp_manual (x y : word 4) : Prop :=
  reciprocal_of (2 ^ 125) (fun y r => relative y r approx_error) x y /\ (tiny x -> signed_inf x y).
Definition rsqrt_manual (x y : word 4) : Prop :=
  rsqrt_of (fun y r => relative y r approx_error) x y /\ (tiny x -> signed_inf x y).
