(** Aligned allocation (Vc/common/malloc.h).  size_t arithmetic wraps at 2^64. *)
From Coq Require Import ZArith List Bool.
From Verif.Model Require Import MemoryClass.
Local Open Scope Z_scope.

(** malloc.h:48-51 *)
Definition next_multiple_of (x value : Z) : Z :=
  if 0 <? value mod x then size_t (size_t (value + x) - value mod x) else value.

Section Malloc.
  (** posix_memalign(alignment, size): the address of the new block, or none *)
  Variable posix_memalign : Z -> Z -> option Z.
  (** malloc.h:53-71 (the POSIX branch); sizeof of a pointer is 8 *)
  Definition aligned_malloc (alignment n : Z) : option Z :=
    posix_memalign (if alignment <? 8 then 8 else alignment) (next_multiple_of alignment n).
  Inductive malloc_alignment := AlignOnVector | AlignOnCacheline | AlignOnPage.
  (** malloc.h:73-86; [va] is Vc::VectorAlignment *)
  Definition alignment_of (va : Z) (a : malloc_alignment) : Z :=
    match a with AlignOnVector => va | AlignOnCacheline => 64 | AlignOnPage => 4096 end.
  Definition malloc_bytes (va : Z) (a : malloc_alignment) (n : Z) : option Z := aligned_malloc (alignment_of va a) n.
  (** malloc.h:135-139 *)
  Definition malloc (va sizeof_t : Z) (a : malloc_alignment) (n : Z) : option Z := malloc_bytes va a (size_t (n * sizeof_t)).
End Malloc.
