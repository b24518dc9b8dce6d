(** Vocabulary for single SIMD vectors. *)
From Coq Require Import ZArith List Bool.
From Verif.Spec Require Import Seq.
From Verif.Model Require Import Word SseBuild.
Import ListNotations.
Local Open Scope Z_scope.

(** the mathematical integer an entry of an integer type stands for *)
Definition e_val (e : etype) (a : elt e) : Z := match e with Short | Int => sval a | _ => uval a end.
(** the entry with value [z] modulo 2^bits *)
Definition e_of (e : etype) (z : Z) : elt e := mkw (esize e) z.

(** converting a mask to [n] entries: entry i is m[i], false beyond the end *)
Definition cast_spec (n : nat) (m : list bool) : list bool := tab n (znth false m).

(** blend<mask>: entry i of [ys] where bit i of the mask is set *)
Definition blend_spec {w} (mask : Z) (xs ys : list (word w)) : list (word w) :=
  map3 (fun x y (b : bool) => if b then y else x) xs ys (tab (length xs) (Z.testbit mask)).

(** [r] is the smallest (largest) of [xs] for the order [le]: an element not above (below) any other *)
Definition least {A} (le : A -> A -> bool) (xs : list A) (r : A) : Prop := In r xs /\ forall x, In x xs -> le r x = true.
Definition greatest {A} (le : A -> A -> bool) (xs : list A) (r : A) : Prop := In r xs /\ forall x, In x xs -> le x r = true.
