(** Compile-time size arithmetic of SimdArray. *)
From Coq Require Import ZArith List Bool.
Local Open Scope Z_scope.

(** Vc/common/utility.h:46-49, the argument of the recursive instantiation,
    [(x | (x >> 1) | (x >> 2) | (x >> 5)) + 1], without the size_t wrap-around (see
    [npot_step64] for the version with it). *)
Definition npot_step (x : Z) : Z :=
  Z.lor (Z.lor (Z.lor x (Z.shiftr x 1)) (Z.shiftr x 2)) (Z.shiftr x 5) + 1.

(** Vc/common/utility.h:41, the default template argument [(x & (x - 1)) == 0]. *)
Definition npot_done (x : Z) : bool := Z.land x (x - 1) =? 0.

(** Vc/common/utility.h:41-49, struct NextPowerOfTwo.  The C++ recursion over template
    instantiations is unbounded; [fuel] bounds it here and [None] means that it did not stop. *)
Fixpoint npot (fuel : nat) (x : Z) : option Z :=
  if npot_done x then Some x
  else match fuel with
       | O => None
       | S fuel' => npot fuel' (npot_step x)
       end.

(** Same with size_t (64 bit) arithmetic made explicit: [x - 1] and the final [+ 1] wrap. *)
Definition npot_step64 (x : Z) : Z := npot_step x mod 2 ^ 64.
Definition npot_done64 (x : Z) : bool := Z.land x ((x - 1) mod 2 ^ 64) =? 0.
Fixpoint npot64 (fuel : nat) (x : Z) : option Z :=
  if npot_done64 x then Some x
  else match fuel with
       | O => None
       | S fuel' => npot64 fuel' (npot_step64 x)
       end.

(** The value of NextPowerOfTwo<n> on [nat]; the fuel [log2 n + 2] is shown to be enough in
    Proof/SplitSizeP.v, so the [0] of the other branch is never produced. *)
Definition next_pow2 (n : nat) : nat :=
  match npot (Z.to_nat (Z.log2 (Z.of_nat n)) + 2) (Z.of_nat n) with
  | Some r => Z.to_nat r
  | None => O
  end.

(** Vc/common/utility.h:78-81, left_size<N>(). *)
Definition left_size (n : nat) : nat := next_pow2 (Nat.div (n + 1) 2).

(** Vc/common/utility.h:86-89, right_size<N>(). *)
Definition right_size (n : nat) : nat := n - left_size n.
