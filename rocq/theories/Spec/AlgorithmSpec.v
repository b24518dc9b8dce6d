(** Meaning of simd_for_each, apply and callWithValuesSorted. *)
From Coq Require Import ZArith List Bool.
From Verif.Spec Require Import Seq.
Import ListNotations.
Local Open Scope Z_scope.

(** [xs] cut into whole blocks of [w] elements, the rest one by one. *)
Definition blocks {A} (w : nat) (xs : list A) : list (list A) :=
  let q := (length xs / w)%nat in
  map (fun i => firstn w (skipn (i * w) xs)) (seq 0 q) ++ map (fun x => [x]) (skipn (q * w) xs).

(** Calling a stateful function with one argument after the other. *)
Fixpoint run_calls {S X Y} (f : S -> X -> S * Y) (s : S) (args : list X) : S * list Y :=
  match args with
  | [] => (s, [])
  | x :: args' =>
      let (s1, y) := f s x in
      let (s2, ys) := run_calls f s1 args' in
      (s2, y :: ys)
  end.

(** Calling it for the selected elements, left to right; the others keep their value. *)
Fixpoint run_selected {S X} (f : S -> X -> S * X) (s : S) (sel : list bool) (xs : list X) : S * list X :=
  match sel, xs with
  | b :: sel', x :: xs' =>
      let (s1, y) := if b then f s x else (s, x) in
      let (s2, ys) := run_selected f s1 sel' xs' in
      (s2, y :: ys)
  | _, _ => (s, [])
  end.

(** The elements that differ from their left neighbour, and the first one. *)
Definition run_heads {A} (eq : A -> A -> bool) (xs : list A) : list A :=
  match xs with
  | [] => []
  | x :: rest => x :: map snd (filter (fun p => negb (eq (snd p) (fst p))) (combine xs rest))
  end.
