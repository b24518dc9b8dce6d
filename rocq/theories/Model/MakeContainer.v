(** Vc::makeContainer (Vc/common/makeContainer.h): containers of vectors from lists of entries.  Both helpers (41-68 for
    containers with an allocator, 70-104 for arrays) run the same statements; a vector is the list of its entries, and the
    vectors of a new container are zero (Vc/common/storage.h:161, 200, 256, 303).  None stands for undefined behaviour. *)
From Coq Require Import List Arith.
Import ListNotations.

Section MakeContainer.
  Context {A : Type} (zero : A).
  (** V::Size *)
  Variable size : nat.
  (** makeContainer.h:52, 76 *)
  Definition container_size (entries : nat) : nat := (entries + (size - 1)) / size.
  (** makeContainer.h:57-60, 93-96: k unaligned loads; what they leave of the list.  A load beyond its end is undefined. *)
  Fixpoint load_loop (k : nat) (init : list A) : option (list (list A) * list A) :=
    match k with
    | 0 => Some ([], init)
    | S k => if length init <? size then None
             else match load_loop k (skipn size init) with
                  | Some (vs, rest) => Some (firstn size init :: vs, rest)
                  | None => None
                  end
    end.
  Definition write (v : list A) (j : nat) (x : A) : list A := firstn j v ++ x :: skipn (S j) v.
  (** makeContainer.h:62-65, 98-101: entry j of the last vector; there is none if j is not below the size *)
  Fixpoint fill (v : list A) (j : nat) (init : list A) : option (list A) :=
    match init with
    | [] => Some v
    | x :: init => if j <? size then fill (write v j x) (S j) init else None
    end.
  (** makeContainer.h:51-67, 86-103.  An empty list gives an empty container, for which size - 1 wraps and the first loop
      runs beyond the ends of both. *)
  Definition make_container (l : list A) : option (list (list A)) :=
    match container_size (length l) with
    | 0 => None
    | S k => match load_loop k l with
             | Some (vs, rest) => match fill (repeat zero size) 0 rest with Some v => Some (vs ++ [v]) | None => None end
             | None => None
             end
    end.
End MakeContainer.
