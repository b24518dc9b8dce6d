(** IEEE-754 binary32 / binary64 arithmetic on bit patterns, as executed by the x86 instructions with the default MXCSR
    (round to nearest even, exceptions masked, denormals enabled).

    Nothing here models code of Vc: these definitions are the meaning of addps, subps, mulps, divps, cvtdq2ps,
    cvttps2dq, cvtps2dq, roundps, ... (and their double counterparts) and of the C++ operators on float and double,
    and belong to the trusted base; Proof/FpArithP proves that [round_magnitude] is the nearest representable value. *)
From Coq Require Import ZArith List Bool Lia.
From Verif.Spec Require Import FloatSpec.
From Verif.Model Require Import Word Fp.
Import ListNotations.
Local Open Scope Z_scope.

(** the smallest subnormal, the unit of [fvalue], is 2 ^ -149 or 2 ^ -1074 *)
Definition unit_exp (w : nat) : Z := 2 ^ (exp_bits w - 1) - 2 + mant_bits w.
Definition one_units (w : nat) : Z := 2 ^ unit_exp w.

(** the fraction n / d without the common factors of two, which shortens the divisions below *)
Fixpoint reduce_pos (n d : positive) : positive * positive :=
  match n, d with
  | xO n', xO d' => reduce_pos n' d'
  | _, _ => (n, d)
  end.
Definition reduce (n d : Z) : Z * Z :=
  match n, d with
  | Zpos p, Zpos q => (Zpos (fst (reduce_pos p q)), Zpos (snd (reduce_pos p q)))
  | Zneg p, Zpos q => (Zneg (fst (reduce_pos p q)), Zpos (snd (reduce_pos p q)))
  | _, _ => (n, d)
  end.
Definition quick_div (n d : Z) : Z := let '(n, d) := reduce n d in n / d.
(** the integer nearest to n / d, ties to even *)
Definition rne (n d : Z) : Z :=
  let '(n, d) := reduce n d in
  let (q, r) := Z.div_eucl n d in
  if 2 * r <? d then q else if d <? 2 * r then q + 1 else if Z.even q then q else q + 1.
(** the magnitude pattern nearest to n / d units, for 0 <= n and 0 < d: with exponent e the representable values are the
    multiples of 2^e, whose patterns are consecutive *)
Definition round_magnitude (w : nat) (n d : Z) : Z :=
  let e := Z.max 0 (Z.log2 (quick_div n d) - mant_bits w) in
  Z.min (inf_magnitude w) (e * 2 ^ mant_bits w + rne n (d * 2 ^ e)).
Definition with_sign (w : nat) (neg : bool) (m : Z) : word w := mkw w ((if neg then sign_weight w else 0) + m).
Definition fround (w : nat) (neg : bool) (n d : Z) : word w := with_sign w neg (round_magnitude w n d).

Definition quiet {w} (x : word w) : word w := mkw w (Z.lor (uval x) (2 ^ (mant_bits w - 1))).
(** the NaN returned for invalid operations *)
Definition indefinite (w : nat) : word w := with_sign w true (inf_magnitude w + 2 ^ (mant_bits w - 1)).
Definition is_inf {w} (x : word w) : bool := magnitude x =? inf_magnitude w.
Definition is_zero {w} (x : word w) : bool := magnitude x =? 0.
Definition fneg {w} (x : word w) : word w := with_sign w (negb (negative x)) (magnitude x).
(** an operation whose operands are not NaN *)
Definition nan2 {w} (a b : word w) (r : word w) : word w :=
  if is_nan a then quiet a else if is_nan b then quiet b else r.

Definition fadd_num {w} (a b : word w) : word w :=
  if is_inf a then if is_inf b && xorb (negative a) (negative b) then indefinite w else a
  else if is_inf b then b
  else
    let s := fvalue a + fvalue b in
    if s =? 0 then with_sign w (negative a && negative b) 0 else fround w (s <? 0) (Z.abs s) 1.
Definition fadd {w} (a b : word w) : word w := nan2 a b (fadd_num a b).
Definition fsub {w} (a b : word w) : word w := nan2 a b (fadd_num a (fneg b)).
Definition fmul {w} (a b : word w) : word w :=
  nan2 a b
    (let s := xorb (negative a) (negative b) in
     if is_inf a || is_inf b then if is_zero a || is_zero b then indefinite w else with_sign w s (inf_magnitude w)
     else fround w s (fabs_value a * fabs_value b) (one_units w)).
Definition fdiv {w} (a b : word w) : word w :=
  nan2 a b
    (let s := xorb (negative a) (negative b) in
     if is_inf a then if is_inf b then indefinite w else with_sign w s (inf_magnitude w)
     else if is_inf b then with_sign w s 0
     else if is_zero b then if is_zero a then indefinite w else with_sign w s (inf_magnitude w)
     else fround w s (fabs_value a * one_units w) (fabs_value b)).

(** conversion of an integer *)
Definition of_int (w : nat) (z : Z) : word w := fround w (z <? 0) (Z.abs z * one_units w) 1.
(** conversion to an integer: towards zero, to nearest; and the integers the roundps modes use *)
Inductive rounding := ToNearest | Down | Up | ToZero.
Definition round_int {w} (r : rounding) (x : word w) : Z :=
  match r with
  | ToNearest => rne (fvalue x) (one_units w)
  | Down => quick_div (fvalue x) (one_units w)
  | Up => - quick_div (- fvalue x) (one_units w)
  | ToZero => Z.quot (fvalue x) (one_units w)
  end.
(** cvtps2dq, cvttps2dq, cvtpd2dq, cvttpd2dq for one value: out of range values and NaN give the integer indefinite *)
Definition cvt_int32 {w} (r : rounding) (x : word w) : word 4 :=
  let z := round_int r x in
  if is_nan x || is_inf x || (z <? - 2 ^ 31) || (2 ^ 31 <=? z) then mkw 4 (2 ^ 31) else mkw 4 z.
(** roundps, roundpd *)
Definition round_to {w} (r : rounding) (x : word w) : word w :=
  if is_nan x then quiet x
  else if is_inf x then x
  else fround w (negative x) (Z.abs (round_int r x) * one_units w) 1.

(** cvtps2pd, cvtpd2ps for one value *)
Definition to_double (x : word 4) : word 8 :=
  if is_nan x then quiet (with_sign 8 (negative x) (inf_magnitude 8 + fraction x * 2 ^ 29))
  else if is_inf x then with_sign 8 (negative x) (inf_magnitude 8)
  else fround 8 (negative x) (fabs_value x * 2 ^ (1074 - 149)) 1.
Definition to_float (x : word 8) : word 4 :=
  if is_nan x then quiet (with_sign 4 (negative x) (inf_magnitude 4 + fraction x / 2 ^ 29))
  else if is_inf x then with_sign 4 (negative x) (inf_magnitude 4)
  else fround 4 (negative x) (fabs_value x) (2 ^ (1074 - 149)).
