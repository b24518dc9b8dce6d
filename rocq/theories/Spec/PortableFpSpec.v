(** The reference meaning of SimdArray<float, N> and SimdArray<double, N>: a sequence of N entries, every operation acting on
    each entry as the IEEE-754 operation does.  Operations whose result IEEE-754, or Vc, leaves open are undefined here
    ([None]); the theorems say nothing about programs that use them. *)
From Coq Require Import ZArith List Bool.
From Verif.Spec Require Import Seq FloatSpec RoundSpec VectorSpec PortableSpec.
From Verif.Model Require Import Word SseBuild FpArith Transcend Program.
Import ListNotations.
Local Open Scope Z_scope.

(** 0.0 and -0.0: the same number with different bits *)
Definition two_zeros {w} (a b : word w) : bool := (fvalue a =? fvalue b) && negb (uval a =? uval b).
(** the sign of the result of an operation with two NaNs, and its other bits, are those of one of the two, which one is open *)
Definition one_nan {w} (a b : word w) (r : word w) : option (word w) := if is_NaN a && is_NaN b then None else Some r.
Definition smaller {w} (a b : word w) : word w := if fvalue b <? fvalue a then b else a.
Definition larger {w} (a b : word w) : word w := if fvalue a <? fvalue b then b else a.

(** + - * /: the correctly rounded result (FpArith.v); min and max of two numbers, not of the two zeros *)
Definition f_arith {w} (op : arith_op) (a b : word w) : option (word w) :=
  match op with
  | OAdd => one_nan a b (fadd a b)
  | OSub => one_nan a b (fsub a b)
  | OMul => one_nan a b (fmul a b)
  | ODiv => one_nan a b (fdiv a b)
  | OMin => if ordered a b && negb (two_zeros a b) then Some (smaller a b) else None
  | OMax => if ordered a b && negb (two_zeros a b) then Some (larger a b) else None
  | OMod | OAnd | OOr | OXor => None
  end.
(** the other sign *)
Definition f_negate {w} (a : word w) : word w :=
  let s := 2 ^ (frac_bits w + expo_bits w) in mkw w (if sign_bit a then uval a - s else uval a + s).
(** abs: the sign bit cleared; sqrt: the correctly rounded root (fsqrt of Transcend.v, see C84) *)
Definition f_unary {w} (op : un_op) (a : word w) : option (word w) :=
  match op with
  | UAbs => Some (mkw w (uval a mod 2 ^ (frac_bits w + expo_bits w)))
  | USqrt => Some (fsqrt a)
  | UCompl => None
  end.
(** the absolute value of a with the sign of b *)
Definition f_copysign {w} (a b : word w) : word w :=
  let s := 2 ^ (frac_bits w + expo_bits w) in mkw w (uval a mod s + (if sign_bit b then s else 0)).
Definition f_test {w} (op : test_op) (a : word w) : bool :=
  match op with TNan => is_NaN a | TInf => is_Inf a | TFinite => is_Finite a | TNegative => sign_bit a end.
(** > and >= with a NaN are true or false depending on the build (C39) *)
Definition f_compare {w} (op : cmp_op) (a b : word w) : option bool :=
  match op with
  | OEq => Some (float_eq a b)
  | ONe => Some (negb (float_eq a b))
  | OLt => Some (float_lt a b)
  | OLe => Some (float_le a b)
  | OGt => if ordered a b then Some (float_lt b a) else None
  | OGe => if ordered a b then Some (float_le b a) else None
  end.
(** Every sum of some of the entries is exact, in whatever order they are added: with s the sum of the absolute values (in units
    of the smallest positive number), all entries are multiples of the unit 2 ^ k of the last place of s, so all sums are
    multiples of 2 ^ k below 2 ^ (k + 24) for float, 2 ^ (k + 53) for double, which can be represented unless k is too large. *)
Definition sums_exact {w} (xs : list (word w)) : bool :=
  let s := fold_right (fun x s => Z.abs (fvalue x) + s) 0 xs in
  let k := Z.max 0 (Z.log2 s - frac_bits w) in
  forallb is_Finite xs && forallb (fun x => fvalue x mod 2 ^ k =? 0) xs && (k <=? 2 ^ expo_bits w - 3).
(** The entries are integers, and every product of some of them is at most 2^24 (float) or 2^53 (double), so that it is exact in
    whatever order they are multiplied. *)
Definition products_exact {w} (xs : list (word w)) : bool :=
  forallb is_Finite xs && forallb (fun x => fvalue x mod fone w =? 0) xs &&
  (fold_right (fun x p => Z.max 1 (Z.abs (fvalue x) / fone w) * p) 1 xs <=? 2 ^ (frac_bits w + 1)).
(** min() and max() of numbers, not both zeros among them; sum(): the entries added from left to right, where the additions are
    exact (otherwise their order, which differs between the builds, matters); product(): the entries multiplied from left to right,
    where they are integers and the multiplications exact. *)
Definition f_reduce {w} (op : red_op) (xs : list (word w)) : option (word w) :=
  match op with
  | RMin | RMax =>
      if existsb is_NaN xs || existsb (fun a => existsb (two_zeros a) xs) xs then None
      else reduce_spec (match op with RMin => smaller | _ => larger end) xs
  | RSum => if sums_exact xs then reduce_spec fadd xs else None
  | RProduct => if products_exact xs then reduce_spec fmul xs else None
  end.

(** partialSum(): the sums from left to right, where the additions are exact and there is no negative zero *)
Definition f_partial_sum {w} (xs : list (word w)) : option (list (word w)) :=
  if sums_exact xs && negb (existsb (fun x => sign_bit x && (fvalue x =? 0)) xs) then Some (partial_sum_spec fadd xs) else None.

(** sum(mask): 0.0 + the selected entries from left to right, under the same conditions *)
Definition f_sum_mask {w} (xs : list (word w)) : option (word w) :=
  if sums_exact xs && negb (existsb (fun x => sign_bit x && (fvalue x =? 0)) xs) then Some (fold_left fadd xs (w0 w)) else None.

(** product(mask): 1.0 times the selected entries from left to right, under the same conditions as product() *)
Definition f_product_mask {w} (xs : list (word w)) : option (word w) :=
  if products_exact xs then Some (fold_left fmul xs (of_int w 1)) else None.

(** sorted() of numbers, not both zeros among them: insertion sort by value *)
Fixpoint f_insert {w} (a : word w) (xs : list (word w)) : list (word w) :=
  match xs with [] => [a] | b :: xs' => if fvalue a <=? fvalue b then a :: xs else b :: f_insert a xs' end.
Definition f_sort {w} (xs : list (word w)) : option (list (word w)) :=
  if existsb is_NaN xs || existsb (fun a => existsb (two_zeros a) xs) xs then None else Some (fold_right f_insert [] xs).

(** Everything else is as for the integer types; shifts do not exist. *)
Definition fp_reference (e : etype) (n : nat) : vops (elt e) (list (elt e)) (list bool) :=
  let r := reference e n in {|
  o_generate := o_generate r;
  o_arith := fun op xs ys => all_defined (map2 (f_arith op) xs ys);
  o_negate := fun xs => Some (map f_negate xs);
  o_unary := fun op xs => all_defined (map (f_unary op) xs);
  o_copysign := fun xs ys => Some (map2 f_copysign xs ys);
  o_test := fun op xs => Some (map (f_test op) xs);
  o_shift := fun _ _ _ => None;
  o_compare := fun op xs ys => all_defined (map2 (f_compare op) xs ys);
  o_logic := o_logic r;
  o_not := o_not r;
  o_assign := o_assign r;
  o_move := fun op xs => match op with MSort => f_sort xs | MPartialSum => f_partial_sum xs | _ => o_move r op xs end;
  o_shift_in := o_shift_in r;
  o_interleave := o_interleave r;
  o_reduce := f_reduce;
  o_reduce_mask := fun op xs k => match op with RSum => f_sum_mask (select_spec k xs) | RProduct => f_product_mask (select_spec k xs) | _ => None end; (* min, max: the builds differ, see C14 *)
  o_get := o_get r;
  o_set := o_set r;
  o_load := o_load r;
  o_store := o_store r;
  o_full := o_full r;
  o_not_empty := o_not_empty r;
  o_count := o_count r;
  o_mask_get := o_mask_get r;
  o_gather := o_gather r;
  o_scatter := o_scatter r
|}.
