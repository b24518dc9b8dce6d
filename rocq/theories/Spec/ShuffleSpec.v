(** Vocabulary for shuffles: what a position (VecPos) names, and the transpose of a square. *)
From Coq Require Import ZArith List.
From Verif.Model Require Import Word.
Import ListNotations.

(** X0 .. X7 (0 .. 7) name the entries of the first operand, Y0 .. Y7 (8 .. 15) those of the second,
    in memory order *)
Definition named {A} (x y : list A) (p : nat) : option A :=
  if Nat.ltb p 8 then nth_error x p else nth_error y (p - 8).
(** [r] consists of the entries named by [ps] *)
Definition picks {A} (x y : list A) (ps : list nat) (r : list A) : Prop :=
  map Some r = map (named x y) ps.

(** [cols] is the transpose of [rows]: entry i of column j is entry j of row i *)
Definition transposed {A} (rows cols : list (list A)) : Prop :=
  length cols = length rows /\
  forall i j, i < length rows -> j < length rows ->
    nth_error (nth j cols []) i = nth_error (nth i rows []) j /\ length (nth j cols []) = length rows.

(** the half named by X0, X1, Y0, Y1 (0, 1, 8, 9), or zeros (Const0 = 16); [n] entries per half *)
Definition half_named {A} (zero : A) (n : nat) (x y : list A) (p : nat) : list A :=
  match p with
  | 0 => firstn n x | 1 => skipn n x
  | 8 => firstn n y | 9 => skipn n y
  | _ => repeat zero n
  end.
