(** Parts of a sequence, as first, last and subspan name them. *)
From Coq Require Import ZArith List Bool.
From Verif.Spec Require Import Seq.
Import ListNotations.
Local Open Scope Z_scope.

(** first<k>(), last<k>(), first(k), last(k), subspan<o, k>(), subspan(o, k); k = -1 in subspan means all the rest *)
Inductive call := FirstT (k : Z) | LastT (k : Z) | First (k : Z) | Last (k : Z) | SubspanT (o k : Z) | Subspan (o k : Z).
(** the offset and the number of elements a call asks for, in a span of n elements *)
Definition asked (n : Z) (c : call) : Z * Z :=
  match c with
  | FirstT k | First k => (0, k)
  | LastT k | Last k => (n - k, k)
  | SubspanT o k | Subspan o k => (o, if k =? -1 then n - o else k)
  end.
Definition in_range (n : Z) (c : call) : Prop := 0 <= fst (asked n c) /\ 0 <= snd (asked n c) /\ fst (asked n c) + snd (asked n c) <= n.
(** the part of a list *)
Definition part {X} (xs : list X) (o k : Z) : list X := firstn (Z.to_nat k) (skipn (Z.to_nat o) xs).
Fixpoint parts {X} (cs : list call) (xs : list X) : list X :=
  match cs with
  | [] => xs
  | c :: r => parts r (part xs (fst (asked (Z.of_nat (length xs)) c)) (snd (asked (Z.of_nat (length xs)) c)))
  end.
(** every call is in range of the part before *)
Fixpoint all_in_range (cs : list call) (n : Z) : Prop :=
  match cs with [] => True | c :: r => in_range n c /\ all_in_range r (snd (asked n c)) end.

(** the order of sequences like words in a dictionary *)
Inductive before {X} (lt eq : X -> X -> bool) : list X -> list X -> Prop :=
| before_end y ys : before lt eq [] (y :: ys)
| before_here x y xs ys : lt x y = true -> before lt eq (x :: xs) (y :: ys)
| before_later x y xs ys : eq x y = true -> before lt eq xs ys -> before lt eq (x :: xs) (y :: ys).
