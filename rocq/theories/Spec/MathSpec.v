(** What the floating-point functions of <Vc/vector> have to return. *)
From Coq Require Import ZArith List Bool.
From Verif.Spec Require Import FloatSpec RoundSpec.
From Verif.Model Require Import Word.
Import ListNotations.
Local Open Scope Z_scope.

(** the integer [z] is n / d (0 < d) rounded towards zero, down, up, and to nearest (ties to even) *)
Definition is_trunc (n d z : Z) : Prop := Z.abs (z * d) <= Z.abs n < (Z.abs z + 1) * d /\ 0 <= z * n.
Definition is_floor (n d z : Z) : Prop := z * d <= n < (z + 1) * d.
Definition is_ceil (n d z : Z) : Prop := (z - 1) * d < n <= z * d.
Definition is_round (n d z : Z) : Prop := 2 * Z.abs (n - z * d) < d \/ (2 * Z.abs (n - z * d) = d /\ Z.Even z).

(** [y] is the value of [x] rounded to an integer; NaN stays NaN and infinities stay what they are *)
Definition rounded_value (R : Z -> Z -> Z -> Prop) {w} (x y : word w) : Prop :=
  (is_Finite x = true -> exists z, R (fvalue x) (fone w) z /\ has_value y z) /\
  (is_NaN x = true -> is_NaN y = true) /\
  (is_Inf x = true -> y = x).

(** same absolute value (and payload), given sign *)
Definition same_magnitude {w} (x y : word w) : Prop := fraction x = fraction y /\ exponent_field x = exponent_field y.

(** normal numbers: neither zero nor denormal nor infinite nor NaN *)
Definition is_Normal {w} (x : word w) : bool := is_Finite x && negb (exponent_field x =? 0).
(** value of y = value of x * 2 ^ e *)
Definition scaled_by {w} (x : word w) (e : Z) (y : word w) : Prop :=
  fvalue y * 2 ^ Z.max 0 (- e) = fvalue x * 2 ^ Z.max 0 e.

(** frexp(x) = (m, e): 0.5 <= |m| < 1 and x = m * 2 ^ e for normal x; zero, NaN and infinity are returned *)
Definition frexp_ok {w} (x m : word w) (e : Z) : Prop :=
  (is_Normal x = true -> fone w <= 2 * Z.abs (fvalue m) /\ Z.abs (fvalue m) < fone w /\ scaled_by m e x) /\
  (is_Finite x = true -> fvalue x = 0 -> m = x /\ e = 0) /\
  (is_Finite x = false -> m = x).
(** the exponent field of the normal number x * 2 ^ e is in range *)
Definition ldexp_in_range {w} (x : word w) (e : Z) : Prop := 1 <= exponent_field x + e <= 2 ^ expo_bits w - 2.
(** 2 ^ k <= x < 2 ^ (k + 1) *)
Definition is_log2 {w} (x : word w) (k : Z) : Prop :=
  fone w * 2 ^ Z.max 0 k <= fvalue x * 2 ^ Z.max 0 (- k) < 2 * (fone w * 2 ^ Z.max 0 k).
(** 0 <= y < 1, and not -0 *)
Definition in_unit_interval {w} (y : word w) : Prop :=
  is_Finite y = true /\ sign_bit y = false /\ 0 <= fvalue y < fone w.
(** a * b + c in the units of [fvalue] divided by [fone] *)
Definition fma_exact {w} (a b c : word w) : Z := fvalue a * fvalue b + fvalue c * fone w.
