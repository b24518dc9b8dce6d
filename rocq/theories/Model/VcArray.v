(** Vc::array<T, Size> (Vc/array:86-310).  The object is at [base] in a memory whose cells hold T; it has max(Size, 1) cells
    (line 101).  The standard algorithms it calls are written out as the C++ standard defines them. *)
From Coq Require Import ZArith List Bool.
From Verif.Model Require Import Mem SimdArray.
Import ListNotations.
Local Open Scope Z_scope.

Section Array.
  Context {A : Type} (Size : nat).

  (** array:110-114 begin(), end() *)
  Definition arr_begin (base : Z) : Z := base.
  Definition arr_end (base : Z) : Z := base + Z.of_nat Size.
  (** array:135-136 the address of operator\[\](n) *)
  Definition arr_index (base n : Z) : Z := base + n.
  (** array:168-181 at(n), const and not: [inr tt] is the exception std::out_of_range; [n] is a size_t *)
  Definition arr_at (base n : Z) : Z + unit := if n >=? Z.of_nat Size then inr tt else inl (base + n).
  (** array:160-163 *)
  Definition arr_front (base : Z) : Z := base.
  Definition arr_back (base : Z) : Z := base + (if (0 <? Z.of_nat Size) then Z.of_nat Size - 1 else 0).

  (** array:104 fill: std::fill_n *)
  Fixpoint fill_n (m : memory A) (first : Z) (n : nat) (u : A) : option (memory A) :=
    match n with
    | O => Some m
    | S n' => m' <-- mem_write m first u; fill_n m' (first + 1) n' u
    end.
  Definition arr_fill (m : memory A) (base : Z) (u : A) := fill_n m base Size u.
  (** array:105-108 swap: std::swap_ranges *)
  Fixpoint swap_ranges (m : memory A) (n : nat) (first other : Z) : option (memory A) :=
    match n with
    | O => Some m
    | S n' => x <-- m first; y <-- m other; m1 <-- mem_write m first y; m2 <-- mem_write m1 other x; swap_ranges m2 n' (first + 1) (other + 1)
    end.
  Definition arr_swap (m : memory A) (base other : Z) := swap_ranges m Size base other.

  (** array:183-193: std::equal *)
  Variable eqb : A -> A -> bool.
  Fixpoint std_equal (m : memory A) (n : nat) (x y : Z) : option bool :=
    match n with
    | O => Some true
    | S n' => a <-- m x; b <-- m y; if eqb a b then std_equal m n' (x + 1) (y + 1) else Some false
    end.
  Definition arr_eq (m : memory A) (x y : Z) := std_equal m Size x y.
  Definition arr_ne (m : memory A) (x y : Z) := option_map negb (arr_eq m x y).
  (** array:195-218: std::lexicographical_compare of ranges of one size *)
  Variable ltb : A -> A -> bool.
  Fixpoint lexicographical_compare (m : memory A) (n : nat) (x y : Z) : option bool :=
    match n with
    | O => Some false
    | S n' => a <-- m x; b <-- m y; if ltb a b then Some true else if ltb b a then Some false else lexicographical_compare m n' (x + 1) (y + 1)
    end.
  Definition arr_lt (m : memory A) (x y : Z) := lexicographical_compare m Size x y.
  Definition arr_gt (m : memory A) (x y : Z) := arr_lt m y x.
  Definition arr_le (m : memory A) (x y : Z) := option_map negb (arr_lt m y x).
  Definition arr_ge (m : memory A) (x y : Z) := option_map negb (arr_lt m x y).
End Array.
