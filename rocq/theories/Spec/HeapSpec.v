(** What a program expects of new: the address is a multiple of the alignment of the object, and the storage behind it is large
    enough. *)
From Coq Require Import ZArith.
Local Open Scope Z_scope.

(** The C library: [posix_memalign alignment size] is the address of new storage, or none.  For an alignment that is a power of two
    and a multiple of the size of a pointer the address is a multiple of it; [owned p s]: s bytes at p have been given out. *)
Definition system_ok (posix_memalign : Z -> Z -> option Z) (owned : Z -> Z -> Prop) : Prop :=
  forall k s q, 8 <= 2 ^ k -> 0 <= s < 2 ^ 64 -> posix_memalign (2 ^ k) s = Some q -> (2 ^ k | q) /\ owned q s.
(** an object of [size] bytes with this alignment can live at p *)
Definition room_for (owned : Z -> Z -> Prop) (p size alignment : Z) : Prop := (alignment | p) /\ exists s, owned p s /\ size <= s.
