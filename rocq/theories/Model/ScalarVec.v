(** Model of Vector<T, VectorAbi::Scalar> and Scalar::Mask (Vc/scalar/vector.h, vector.tcc, mask.h).
    A Scalar vector is a list with one element. *)
From Coq Require Import ZArith List Bool.
From Verif.Spec Require Import Seq.
From Verif.Model Require Import SimdArray SimdArrayOps.
Import ListNotations.
Local Open Scope Z_scope.

Definition scalar_native (n : nat) : bool := Nat.eqb n 1.

(** scalar/vector.h:233, 246-253, 300-301. *)
Definition scalar_ops {A} (zero : A) : native_ops A := {|
  n_shifted := fun xs amount => if amount =? 0 then xs else [zero];
  n_shifted_in := fun xs amount shiftIn => if amount =? 0 then xs else shiftIn;
  n_rotated := fun xs _ => xs;
  n_reversed := fun xs => xs;
  n_interleave_low := fun xs _ => xs;
  n_interleave_high := fun _ x => x;
  n_sorted := fun xs => xs;
  n_partial_sum := fun xs => xs
|}.

(** scalar/vector.h:229-232 min, max, product, sum without mask. *)
Definition scalar_reduce {A} (zero : A) (xs : list A) : A := hd zero xs.

(** scalar/vector.h:234-235: min(Mask), max(Mask) ignore the mask; 236-244: product(Mask),
    sum(Mask) return the neutral element [neutral] for an unset mask. *)
Definition scalar_minmax_masked {A} (zero : A) (xs : list A) (_ : list bool) : A := hd zero xs.
Definition scalar_sumprod_masked {A} (zero neutral : A) (xs : list A) (m : list bool) : A :=
  if hd false m then hd zero xs else neutral.

(** scalar/vector.h:206-208 assign, 127-129 setZeroInverted. *)
Definition scalar_assign {A} (xs vs : list A) (m : list bool) : list A := if hd false m then vs else xs.
Definition scalar_zero_inverted {A} (zero : A) (xs : list A) (m : list bool) : list A :=
  if negb (hd false m) then [zero] else xs.

(** scalar/mask.h:75-127, 159-167. *)
Definition scalar_mask_ops : native_mask_ops := {|
  k_full := fun m => hd false m;
  k_not_empty := fun m => hd false m;
  k_empty := fun m => negb (hd false m);
  k_to_int := fun m => if hd false m then 1 else 0;
  k_count := fun m => if hd false m then 1 else 0;
  k_first := fun _ => 0;
  k_eq := fun a b => Bool.eqb (hd false a) (hd false b);
  k_neq := fun a b => xorb (hd false a) (hd false b)
|}.
