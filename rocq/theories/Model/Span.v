(** Vc::span (Vc/common/span.h).

    A span is an address, a number of elements and, if its type says so, a static extent.  Addresses count elements.  [checked]
    says whether Vc_ASSERT is active; a failing assertion, and an expression that does not compile, is [None]. *)
From Coq Require Import ZArith List Bool.
From Verif.Spec Require Import Seq SpanSpec.
Import ListNotations.
Local Open Scope Z_scope.

Record span := { data : Z; count : Z; extent : option Z }.
(** span.h:31 *)
Definition dynamic_extent : Z := -1.
(** span.h:276, 469 size *)
Definition size (s : span) : Z := match extent s with Some e => e | None => count s end.

Section Span.
  Variable checked : bool.
  Definition assert (b : bool) {X} (x : option X) : option X := if checked && negb b then None else x.
  (** span.h:155-159 and 365: the constructor with a pointer and a number, for span<T, e> *)
  Definition make (e p n : Z) : option span :=
    if e =? dynamic_extent then Some {| data := p; count := n; extent := None |}
    else if e <? 0 then None (* span.h:143 static_assert *)
    else assert (e =? n) (Some {| data := p; count := n; extent := Some e |}).
  (** span.h:217-273 (static extent), 415-467 (dynamic extent) *)
  Definition run (s : span) (c : call) : option span :=
    let n := size s in
    match c with
    | FirstT k =>
        match extent s with
        | Some e => if (0 <=? k) && (k <=? e) then make k (data s) k else None
        | None => if 0 <=? k then assert (k <=? n) (make k (data s) k) else None
        end
    | LastT k =>
        match extent s with
        | Some e => if (0 <=? k) && (k <=? e) then make k (data s + n - k) k else None
        | None => if 0 <=? k then assert (k <=? n) (make k (data s + n - k) k) else None
        end
    | First k => assert ((0 <=? k) && (k <=? n)) (make dynamic_extent (data s) k)
    | Last k => assert ((0 <=? k) && (k <=? n)) (make dynamic_extent (data s + n - k) k)
    | SubspanT o k =>
        match extent s with
        | Some e => assert ((0 <=? o) && (o <=? n))
                      (make (if k =? dynamic_extent then e - o else k) (data s + o) (if k =? dynamic_extent then n - o else k))
        | None => assert ((0 <=? o) && (o <=? n)) (assert ((k =? dynamic_extent) || (o + k <=? n))
                    (make dynamic_extent (data s + o) (if k =? dynamic_extent then n - o else k)))
        end
    | Subspan o k =>
        assert ((0 <=? o) && (o <=? n)) (assert ((0 <=? k) && (k <=? n) || (k =? dynamic_extent))
          (if k =? dynamic_extent then make dynamic_extent (data s + o) (n - o)
           else assert (o + k <=? n) (make dynamic_extent (data s + o) k)))
    end.
  Fixpoint run_all (s : span) (cs : list call) : option span :=
    match cs with [] => Some s | c :: r => match run s c with Some s' => run_all s' r | None => None end end.
  (** span.h:283-293, 476-486 operator[] and operator(): the address of the element *)
  Definition subscript (s : span) (i : Z) : option Z := assert ((0 <=? i) && (i <? size s)) (Some (data s + i)).
End Span.

(** span.h:298-314, 491-507 begin, end, rbegin, rend: the addresses that a loop from begin to end, or from rbegin to rend, visits.
    A reverse iterator at p stands for the element before p. *)
Fixpoint visit (fuel : nat) (from to step : Z) : list Z :=
  match fuel with O => [] | S f => if from =? to then [] else from :: visit f (from + step) to step end.
Definition forward (s : span) : list Z := visit (Z.to_nat (size s)) (data s) (data s + size s) 1.
Definition backward (s : span) : list Z := map (fun p => p - 1) (visit (Z.to_nat (size s)) (data s + size s) (data s) (-1)).
(** span.h:277, 470 size_bytes *)
Definition size_bytes (w : Z) (s : span) : Z := size s * w.
(** span.h:316-321, 509-518 swap, on spans of the same type *)
Definition swap (s t : span) : span * span :=
  ({| data := data t; count := count t; extent := extent s |}, {| data := data s; count := count s; extent := extent t |}).

(** span.h:541-575: std::equal and std::lexicographical_compare over the elements *)
Section Compare.
  Context {X : Type} (lt eq : X -> X -> bool).
  Fixpoint equal (a b : list X) : bool :=
    match a, b with [], [] => true | x :: a', y :: b' => eq x y && equal a' b' | _, _ => false end.
  Fixpoint lexicographical (a b : list X) : bool :=
    match a, b with
    | _, [] => false
    | [], _ :: _ => true
    | x :: a', y :: b' => if lt x y then true else if lt y x then false else lexicographical a' b'
    end.
  Definition span_eq a b := equal a b.
  Definition span_ne a b := negb (equal b a).
  Definition span_lt a b := lexicographical a b.
  Definition span_le a b := negb (lexicographical b a).
  Definition span_gt a b := lexicographical b a.
  Definition span_ge a b := negb (lexicographical a b).
End Compare.
(** the elements of a span in memory *)
Definition elements {X} (m : Z -> X) (s : span) : list X := map m (forward s).
