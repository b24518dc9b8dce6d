(** Vc::Allocator (Vc/Allocator) on a heap of bytes.  size_t arithmetic wraps at 2^64; a pointer has 8 bytes. *)
From Coq Require Import ZArith List Bool.
From Verif.Spec Require Import AllocatorSpec.
From Verif.Model Require Import MemoryClass.
Import ListNotations.
Local Open Scope Z_scope.

(** Allocator<T> in one build: sizeof(T), alignof(T) and Allocator:140-146, 32 with AVX, 16 with SSE and 1 otherwise *)
Record allocator := mkallocator { sizeof_t : Z; alignof_t : Z; simd_alignment : Z }.
Definition heap := Z -> Z.
(** writing and reading a pointer, little endian *)
Definition store_pointer (m : heap) (a p : Z) : heap :=
  fun x => if (a <=? x) && (x <? a + 8) then p / 256 ^ (x - a) mod 256 else m x.
Definition load_pointer (m : heap) (a : Z) : Z :=
  m a + 256 * (m (a + 1) + 256 * (m (a + 2) + 256 * (m (a + 3) + 256 * (m (a + 4) + 256 * (m (a + 5) + 256 * (m (a + 6) + 256 * m (a + 7))))))).

Section Allocator.
  (** Allocator:132-139: alignof(std::max_align_t) *)
  Variable natural : Z.
  Section Type_.
    Variable A : allocator.
    (** Allocator:147 *)
    Definition alignment : Z := if simd_alignment A <? alignof_t A then alignof_t A else simd_alignment A.
    (** Allocator:164-165 *)
    Definition extra_bytes : Z := if natural <? alignment then alignment else 0.
    Definition alignment_mask : Z := alignment - 1.
    (** Allocator:210 *)
    Definition max_size : Z := (2 ^ 64 - 1) / sizeof_t A.
    (** Allocator:191: the size of the request to ::operator new *)
    Definition request (n : Z) : Z := size_t (size_t (n * sizeof_t A) + extra_bytes).
    (** Allocator:194-196 *)
    Definition adjusted (pp : Z) : Z := let p := size_t (pp + extra_bytes) in p - Z.land p alignment_mask.
    (** Allocator:185-200: [answer] is what ::operator new returns, nothing if it throws std::bad_alloc *)
    Definition allocate (n : Z) (answer : option Z) (m : heap) : option (heap * Z) :=
      if max_size <? n then None
      else match answer with
      | None => None
      | Some pp => if 0 <? extra_bytes then Some (store_pointer m (adjusted pp - 8) pp, adjusted pp) else Some (m, pp)
      end.
    (** Allocator:202-208: the address given to ::operator delete *)
    Definition deallocate (p : Z) (m : heap) : Z := if 0 <? extra_bytes then load_pointer m (p - 8) else p.
  End Type_.

  (** ** programs: the history of the calls of any number of allocators, and of the writes of the program *)
  (** the result of a call of allocate that did not throw; [answered] only records what ::operator new had returned *)
  Record object := mkobject { of_type : allocator; address : Z; count : Z; answered : Z }.
  Definition bytes (o : object) : Z := count o * sizeof_t (of_type o).
  (** the storage obtained from ::operator new and not deleted, the objects not yet deallocated, the contents *)
  Record state := mkstate { blocks : list block; objects : list object; contents : heap }.
  Inductive event :=
    | Allocate (A : allocator) (n : Z) (answer : option Z)
    | Deallocate (i : nat) (** of the i-th object *)
    | Write (a v : Z).
  (** ::operator delete(p): none, undefined behaviour, unless p was obtained from ::operator new *)
  Fixpoint delete (p : Z) (bs : list block) : option (list block) :=
    match bs with
    | [] => None
    | b :: bs => if fst b =? p then Some bs else match delete p bs with Some bs => Some (b :: bs) | None => None end
    end.
  Definition step (s : state) (e : event) : option state :=
    match e with
    | Allocate A n answer =>
        match allocate A n answer (contents s), answer with
        | Some (m, p), Some pp => Some (mkstate ((pp, request A n) :: blocks s) (mkobject A p n pp :: objects s) m)
        | _, _ => Some s
        end
    | Deallocate i =>
        match nth_error (objects s) i with
        | None => None
        | Some o => match delete (deallocate (of_type o) (address o) (contents s)) (blocks s) with
                    | Some bs => Some (mkstate bs (without i (objects s)) (contents s))
                    | None => None
                    end
        end
    | Write a v => Some (mkstate (blocks s) (objects s) (fun x => if x =? a then v else contents s x))
    end.
  (** a type of C++ and a build *)
  Definition a_type (A : allocator) : Prop :=
    0 < sizeof_t A /\ power_of_two (alignof_t A) /\ (alignof_t A | sizeof_t A) /\ power_of_two (simd_alignment A).
  (** the contracts: ::operator new gives new storage; the program deallocates objects it has, once, and writes only to
      its objects (or to storage that is in use by nobody) *)
  Definition allowed (s : state) (e : event) : Prop :=
    match e with
    | Allocate A n answer => a_type A /\ 0 <= n < 2 ^ 64 /\ match answer with Some pp => new_block natural (blocks s) (request A n) pp | None => True end
    | Deallocate i => (i < length (objects s))%nat
    | Write a v => 0 <= v < 256 /\
        (Exists (fun o => address o <= a < address o + bytes o) (objects s) \/
         Forall (fun b => apart a 1 (fst b) (Z.max 1 (snd b))) (blocks s))
    end.
  (** the extra bytes do not make the size of a request wrap *)
  Definition moderate (e : event) : Prop :=
    match e with Allocate A n _ => n * sizeof_t A < 2 ^ 64 -> n * sizeof_t A + alignment A < 2 ^ 64 | _ => True end.
  (** the states after a history of allowed (and moderate) events *)
  Inductive reachable : state -> Prop :=
    | Start : forall m, reachable (mkstate [] [] m)
    | Next : forall s e s', reachable s -> allowed s e -> moderate e -> step s e = Some s' -> reachable s'.
End Allocator.
