(** The real number a float or double stands for, and how near it is to another real number. *)
From Coq Require Import ZArith Reals List.
From Verif.Spec Require Import FloatSpec RoundSpec.
From Verif.Model Require Import Word.
Local Open Scope R_scope.

(** the value of a finite float or double *)
Definition real {w} (x : word w) : R := IZR (fvalue x) / IZR (fone w).
(** [y] is finite and differs from the real number [r] by at most [err] *)
Definition accurate {w} (y : word w) (r err : R) : Prop := is_Finite y = true /\ Rabs (real y - r) <= err.
