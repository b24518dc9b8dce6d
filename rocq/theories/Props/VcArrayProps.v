(** Vc::array *)
From Coq Require Import ZArith List Bool Lia.
From Verif.Spec Require Import MemSpec ArraySpec.
From Verif.Model Require Import Mem SimdArray VcArray.
Import ListNotations.
Local Open Scope Z_scope.
From Verif.Proof Require VcArrayMain.

(** at(n) refers to entry n if the array has one and throws otherwise, for every size_t; front() and back() refer to the first and the last
entry, and begin() to end() are its entries. *)
Theorem C75_at :
forall Size base n, 0 <= n < 2 ^ 64 ->
  (n < Z.of_nat Size -> arr_at Size base n = inl (arr_index base n)) /\ (Z.of_nat Size <= n -> arr_at Size base n = inr tt) /\
  ((0 < Size)%nat -> arr_at Size base 0 = inl (arr_front base) /\ arr_at Size base (Z.of_nat Size - 1) = inl (arr_back Size base)) /\
  arr_end Size base - arr_begin base = Z.of_nat Size /\ arr_begin base = arr_index base 0.
Proof. exact VcArrayMain.C75_at_main. Qed.
Print Assumptions C75_at.

Example C75_at_ex :
arr_at 3 100 2 = inl 102 /\ arr_at 3 100 3 = inr tt /\ arr_at 3 100 (2 ^ 64 - 1) = inr tt.
Proof.
repeat split.
Qed.

(** fill(u) makes all entries u and changes nothing else. *)
Theorem C75_fill :
forall (A : Type) Size (m : memory A) base (old : list A) u, length old = Size -> holds m base old ->
  exists m', arr_fill Size m base u = Some m' /\ replaced m base (repeat u Size) m'.
Proof. exact VcArrayMain.C75_fill_main. Qed.
Print Assumptions C75_fill.

Example C75_fill_ex :
option_map (fun m' => map m' [9; 10; 11; 12; 13]) (arr_fill 3 (fun a => Some a) 10 7) = Some [Some 9; Some 7; Some 7; Some 7; Some 13].
Proof.
vm_compute. reflexivity.
Qed.

(** swap exchanges the contents of two arrays and changes nothing else; swapping an array with itself changes nothing. *)
Theorem C75_swap :
forall (A : Type) Size (m : memory A) x y (xs ys : list A), length xs = Size -> length ys = Size -> holds m x xs -> holds m y ys ->
  (x + Z.of_nat Size <= y \/ y + Z.of_nat Size <= x ->
    exists m', arr_swap Size m x y = Some m' /\ holds m' x ys /\ holds m' y xs /\
      forall c, ~ x <= c < x + Z.of_nat Size -> ~ y <= c < y + Z.of_nat Size -> m' c = m c) /\
  exists m', arr_swap Size m x x = Some m' /\ forall c, m' c = m c.
Proof. exact VcArrayMain.C75_swap_main. Qed.
Print Assumptions C75_swap.

Example C75_swap_ex :
option_map (fun m' => map m' [9; 10; 11; 12; 13; 14]) (arr_swap 2 (fun a => Some a) 10 12) = Some [Some 9; Some 12; Some 13; Some 10; Some 11; Some 14].
Proof.
vm_compute. reflexivity.
Qed.

(** == and != compare all entries; < and > are the lexicographic order, also for entries that are not totally ordered; <= and >= are the
negations of > and <. *)
Theorem C75_compare :
forall (A : Type) Size (eqb ltb : A -> A -> bool) (m : memory A) x y (xs ys : list A),
  (forall a b, eqb a b = true <-> a = b) -> (forall a b, ltb a b = true -> ltb b a = false) ->
  length xs = Size -> length ys = Size -> holds m x xs -> holds m y ys ->
  exists eq ne lt gt le ge,
    arr_eq Size eqb m x y = Some eq /\ arr_ne Size eqb m x y = Some ne /\ arr_lt Size ltb m x y = Some lt /\ arr_gt Size ltb m x y = Some gt /\
    arr_le Size ltb m x y = Some le /\ arr_ge Size ltb m x y = Some ge /\
    (eq = true <-> xs = ys) /\ (ne = true <-> xs <> ys) /\ (lt = true <-> lexicographically_less ltb xs ys) /\ (gt = true <-> lexicographically_less ltb ys xs) /\
    (le = true <-> ~ lexicographically_less ltb ys xs) /\ (ge = true <-> ~ lexicographically_less ltb xs ys).
Proof. exact VcArrayMain.C75_compare_main. Qed.
Print Assumptions C75_compare.

Example C75_compare_ex :
let m := fun a => nth_error [1; 5; 2; 1; 5; 3] (Z.to_nat a) in
arr_lt 3 Z.ltb m 0 3 = Some true /\ arr_eq 3 Z.eqb m 0 3 = Some false /\ arr_ge 3 Z.ltb m 0 3 = Some false.
Proof.
vm_compute. repeat split.
Qed.
