(** Order of sequences of one length. *)
From Coq Require Import List.

(** the entries of xs and ys before the first one of xs that is smaller are equivalent *)
Definition lexicographically_less {A} (lt : A -> A -> bool) (xs ys : list A) : Prop :=
  exists pre pre' x y post post', xs = pre ++ x :: post /\ ys = pre' ++ y :: post' /\ length pre = length pre' /\ lt x y = true /\
    Forall2 (fun a b => lt a b = false /\ lt b a = false) pre pre'.
