(** What users of sin, cos, asin, atan, atan2, log, exp rely on whatever the accuracy of the approximations is. *)
From Coq Require Import ZArith List Bool.
From Verif.Spec Require Import Seq FloatSpec RoundSpec MathSpec.
From Verif.Model Require Import Word.
Import ListNotations.
Local Open Scope Z_scope.

(** entry [i] of a vector *)
Definition entry {w} (xs : list (word w)) (i : Z) : word w := znth (w0 w) xs i.
Definition an_entry {w} (xs : list (word w)) (i : Z) : Prop := 0 <= i < Z.of_nat (length xs).
(** [y] is -x: same bits except for the sign *)
Definition negated {w} (x y : word w) : Prop := same_magnitude x y /\ sign_bit y = negb (sign_bit x).
(** the entries of both vectors agree up to their signs *)
Definition same_but_signs {w} (xs ys : list (word w)) : Prop :=
  length xs = length ys /\ forall i, an_entry xs i -> same_magnitude (entry xs i) (entry ys i).
(** |x| <= b *)
Definition within {w} (b : Z) (x : word w) : Prop := is_Finite x = true /\ Z.abs (fvalue x) <= b * fone w.
(** +0 or -0 *)
Definition is_Zero {w} (x : word w) : Prop := is_Finite x = true /\ fvalue x = 0.
(** the bits [z] of a double or float *)
Definition float_bits (z : Z) : word 4 := mkw 4 z.
Definition double_bits (z : Z) : word 8 := mkw 8 z.
(** +infinity and -infinity *)
Definition infinity {w} (neg : bool) (x : word w) : Prop := is_Inf x = true /\ sign_bit x = neg.
(** the float or double nearest to pi / 2, and the same value times 1/2 and 2, which is nearest to pi / 4 and pi *)
Definition half_pi (w : nat) : word w := match w with 4%nat => mkw _ 0x3fc90fdb | _ => mkw _ 0x3ff921fb54442d18 end.
Definition quarter_pi (w : nat) : word w := match w with 4%nat => mkw _ 0x3f490fdb | _ => mkw _ 0x3fe921fb54442d18 end.
Definition whole_pi (w : nat) : word w := match w with 4%nat => mkw _ 0x40490fdb | _ => mkw _ 0x400921fb54442d18 end.
(** 3/4 pi *)
Definition three_quarter_pi (w : nat) : word w := match w with 4%nat => mkw _ 0x4016cbe4 | _ => mkw _ 0x4002d97c7f3321d2 end.
(** [y] has the bits of [m] with the sign of [s] *)
Definition signed_as {w} (s m y : word w) : Prop := same_magnitude m y /\ sign_bit y = sign_bit s.
(** x = 2 ^ k *)
Definition is_power_of_two {w} (x : word w) (k : Z) : Prop :=
  is_Finite x = true /\ fvalue x * 2 ^ Z.max 0 (- k) = fone w * 2 ^ Z.max 0 k.
