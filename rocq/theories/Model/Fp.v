(** IEEE-754 binary32 / binary64 values as bit patterns ([word 4] / [word 8]).

    Only what x86 compare, minps/maxps and Vc's bit manipulation need: sign, exponent field and
    magnitude of the pattern.  Two non-NaN patterns compare like their sign-magnitude keys (the
    encoding is monotonic), and +0, -0 have the same key. *)
From Coq Require Import ZArith List Bool Lia.
From Verif.Model Require Import Word.
Import ListNotations.
Local Open Scope Z_scope.

(** explicit mantissa bits of float (w = 4) and double (w = 8) *)
Definition mant_bits (w : nat) : Z := match w with 4%nat => 23 | _ => 52 end.
Definition exp_bits (w : nat) : Z := bits w - 1 - mant_bits w.
Definition sign_weight (w : nat) : Z := 2 ^ (bits w - 1).

Definition negative {w} (x : word w) : bool := sign_weight w <=? uval x.
Definition magnitude {w} (x : word w) : Z := uval x mod sign_weight w.
(** the magnitude of infinity: exponent field all ones, mantissa 0 *)
Definition inf_magnitude (w : nat) : Z := (2 ^ exp_bits w - 1) * 2 ^ mant_bits w.

Definition is_nan {w} (x : word w) : bool := inf_magnitude w <? magnitude x.
Definition fkey {w} (x : word w) : Z := if negative x then - magnitude x else magnitude x.

(** ordered comparisons (false if an operand is NaN): cmpltps, cmpleps, cmpeqps and the C++
    operators of float and double *)
Definition flt {w} (a b : word w) : bool := negb (is_nan a) && negb (is_nan b) && (fkey a <? fkey b).
Definition fle {w} (a b : word w) : bool := negb (is_nan a) && negb (is_nan b) && (fkey a <=? fkey b).
Definition feq {w} (a b : word w) : bool := negb (is_nan a) && negb (is_nan b) && (fkey a =? fkey b).

(** minps/minpd/minss/minsd and maxps...: the second operand unless the comparison holds *)
Definition mm_fmin {w} (a b : word w) : word w := if flt a b then a else b.
Definition mm_fmax {w} (a b : word w) : word w := if flt b a then a else b.

Definition pos_zero (w : nat) : word w := w0 w.
Definition neg_zero (w : nat) : word w := mkw w (sign_weight w).
Definition pos_inf (w : nat) : word w := mkw w (inf_magnitude w).
Definition a_nan (w : nat) : word w := mkw w (inf_magnitude w + 2 ^ (mant_bits w - 1)).
