(** What data[indexes][&S::member][k][inner]... means: object types, the way to a number inside an object, and its offset. *)
From Coq Require Import ZArith List Bool.
From Verif.Spec Require Import Seq NativeSpec.
Import ListNotations.
Local Open Scope Z_scope.

(** object types: arithmetic types, classes (size, and the offset and type of each member), arrays *)
Inductive ctype := Number (w : Z) | Class (size : Z) (members : list (Z * ctype)) | Array (n : Z) (elem : ctype).
Fixpoint sizeof (t : ctype) : Z := match t with Number w => w | Class s _ => s | Array n u => n * sizeof u end.
Fixpoint alignof (t : ctype) : Z :=
  match t with
  | Number w => w
  | Class _ ms => (fix largest l := match l with [] => 1 | (_, u) :: r => Z.max (alignof u) (largest r) end) ms
  | Array _ u => alignof u
  end.
(** the layout of a type on x86-64: numbers have 1, 2, 4 or 8 bytes and are aligned at their size; the members of a class are
    aligned, lie inside the object, and the size of the class is a multiple of its alignment *)
Fixpoint laid_out (t : ctype) : Prop :=
  match t with
  | Number w => w = 1 \/ w = 2 \/ w = 4 \/ w = 8
  | Class s ms =>
      0 < s /\ (alignof (Class s ms) | s) /\
      (fix all l := match l with [] => True | (o, u) :: r => (laid_out u /\ 0 <= o /\ (alignof u | o) /\ o + sizeof u <= s) /\ all r end) ms
  | Array n u => 0 < n /\ laid_out u
  end.

(** one subscript: [&S::member] (the k-th member), [j], or [inner] with one index for each entry of the vector *)
Inductive step := Member (k : nat) | At (j : Z) | AtEach (js : list Z).
(** the type at the end of the way *)
Fixpoint reach (t : ctype) (p : list step) : option ctype :=
  match p, t with
  | [], _ => Some t
  | Member k :: r, Class _ ms => match nth_error ms k with Some (_, u) => reach u r | None => None end
  | At _ :: r, Array _ u => reach u r
  | AtEach _ :: r, Array _ u => reach u r
  | _, _ => None
  end.
(** the offset in bytes of the end of the way in an object of type t, for entry i of the vector *)
Fixpoint offset (t : ctype) (p : list step) (i : Z) : Z :=
  match p, t with
  | Member k :: r, Class _ ms => match nth_error ms k with Some (o, u) => o + offset u r i | None => 0 end
  | At j :: r, Array _ u => j * sizeof u + offset u r i
  | AtEach js :: r, Array _ u => znth 0 js i * sizeof u + offset u r i
  | _, _ => 0
  end.
(** the part of the offset that depends on the entry of the vector *)
Fixpoint moving (t : ctype) (p : list step) (i : Z) : Z :=
  match p, t with
  | Member k :: r, Class _ ms => match nth_error ms k with Some (_, u) => moving u r i | None => 0 end
  | At j :: r, Array _ u => moving u r i
  | AtEach js :: r, Array _ u => znth 0 js i * sizeof u + moving u r i
  | _, _ => 0
  end.
(** the array subscripts are inside the arrays; there are n inner indexes *)
Fixpoint in_bounds (n : nat) (t : ctype) (p : list step) : Prop :=
  match p, t with
  | Member k :: r, Class _ ms => match nth_error ms k with Some (_, u) => in_bounds n u r | None => True end
  | At j :: r, Array len u => 0 <= j < len /\ in_bounds n u r
  | AtEach js :: r, Array len u => (length js = n /\ Forall (fun j => 0 <= j < len) js) /\ in_bounds n u r
  | _, _ => True
  end.
(** the elements of an array with inner indexes divide the objects that are indexed *)
Fixpoint divides (stride : Z) (t : ctype) (p : list step) : Prop :=
  match p, t with
  | Member k :: r, Class _ ms => match nth_error ms k with Some (_, u) => divides stride u r | None => True end
  | At j :: r, Array _ u => divides stride u r
  | AtEach js :: r, Array _ u => (sizeof u | stride) /\ divides (sizeof u) u r
  | _, _ => True
  end.

(** the integer types of indexes (smaller ones are promoted to int) *)
Inductive index_kind := IxInt | IxUInt | IxLong | IxULong.
Definition fits (k : index_kind) (z : Z) : Prop :=
  match k with
  | IxInt => - 2 ^ 31 <= z < 2 ^ 31
  | IxUInt => 0 <= z < 2 ^ 32
  | IxLong => - 2 ^ 63 <= z < 2 ^ 63
  | IxULong => 0 <= z < 2 ^ 64
  end.
(** the offset of the number that belongs to entry i: object index i, then the way *)
Definition place (S : ctype) (p : list step) (idx : list Z) (i : Z) : Z := sizeof S * znth 0 idx i + offset S p i.

(** where the indexes are: in a native vector, in a SimdArray (of the native vectors [native]), in a std::vector *)
Inductive storage := InVector | InArray (native : nat -> bool) | InStdVector.
Definition is_simd (st : storage) : bool := match st with InStdVector => false | _ => true end.
Definition holds_indexes (st : storage) (n : nat) : Prop :=
  match st with InVector => exists a, n = Nat.pow 2 a | InArray native => widths_ok native | InStdVector => True end.

(** A subscript expression for n entries with numbers of w bytes at its end: the type is laid out as usual, there are n indexes of
    type k (not negative in a std::vector), the way ends at such a number, inner subscripts stay inside their arrays, array
    elements with inner indexes divide the objects that are indexed, and the distance between the number and that of object 0,
    counted in numbers, is representable in the type of the indexes *)
Definition expression (k : index_kind) (st : storage) (n : nat) (w : Z) (S : ctype) (p : list step) (idx : list Z) : Prop :=
  laid_out S /\ (holds_indexes st n /\ length idx = n /\ Forall (fits k) idx /\ (is_simd st = false -> Forall (fun z => 0 <= z) idx)) /\
  reach S p = Some (Number w) /\ in_bounds n S p /\ divides (sizeof S) S p /\
  forall i, 0 <= i < Z.of_nat n -> fits k ((sizeof S * znth 0 idx i + moving S p i) / w).

(** for the examples: struct { float f; float g[3]; double d; } and the way data[{3,0,1,1,2}][&S::g][{2,0,1,1,0}] *)
Definition sample : ctype := Class 24 [(0, Number 4); (4, Array 3 (Number 4)); (16, Number 8)].
Definition sample_way : list step := [Member 1; AtEach [2; 0; 1; 1; 0]].
Definition sample_indexes : list Z := [3; 0; 1; 1; 2].
