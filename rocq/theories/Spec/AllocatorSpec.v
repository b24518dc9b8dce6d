(** What the users of Vc::Allocator, and the operators new and delete it is built on, may expect. *)
From Coq Require Import ZArith List Bool.
Import ListNotations.
Local Open Scope Z_scope.

Definition power_of_two (z : Z) : Prop := exists k, 0 <= k /\ z = 2 ^ k.
(** [n] bytes at [a] and [m] bytes at [b] have no byte in common *)
Definition apart (a n b m : Z) : Prop := a + n <= b \/ b + m <= a.
(** a block of storage: its address and its size *)
Definition block := (Z * Z)%type.
Definition in_block (a n : Z) (b : block) : Prop := fst b <= a /\ a + n <= fst b + snd b.
(** the contract of ::operator new: a request for [size] bytes is answered with storage that is suitably aligned for the
    fundamental types, that overlaps no storage in use (and has an address of its own even if it is empty), and that does
    not end at the end of the address space *)
Definition new_block (natural : Z) (blocks : list block) (size b : Z) : Prop :=
  0 < b /\ b + Z.max 1 size < 2 ^ 64 /\ b mod natural = 0 /\
  Forall (fun k => apart b (Z.max 1 size) (fst k) (Z.max 1 (snd k))) blocks.
(** the list without its i-th element *)
Definition without {A} (i : nat) (l : list A) : list A := firstn i l ++ skipn (S i) l.
