(** Vc::Allocator and Vc::makeContainer *)
From Coq Require Import ZArith List Bool Lia.
From Verif.Spec Require Import AllocatorSpec.
From Verif.Model Require Import MemoryClass Allocator MakeContainer.
Import ListNotations.
Local Open Scope Z_scope.
From Verif.Proof Require AllocatorMain.

(** C60: after any history of calls of the allocate and deallocate functions of any number of Vc::Allocators and of writes of the
program to its objects: every object (the result of an allocate call not yet deallocated) has the alignment of its type and
of the vectors of the build, and lies in storage obtained from ::operator new and not yet deleted; no two objects overlap;
deallocate hands to ::operator delete exactly the address that ::operator new had returned for the object; and every further
call that respects the contracts is defined.  Missing: calls where n * sizeof(T) fits into size_t but the request with the
extra bytes does not (see C60_allocate_refuted). *)
Theorem C60_allocator_partial :
  forall natural s, power_of_two natural -> 8 <= natural -> reachable natural s ->
    (forall o, In o (objects s) -> (alignof_t (of_type o) | address o) /\ (simd_alignment (of_type o) | address o) /\
                                   exists b, In b (blocks s) /\ in_block (address o) (bytes o) b) /\
    (forall i j o o', i <> j -> nth_error (objects s) i = Some o -> nth_error (objects s) j = Some o' ->
       apart (address o) (bytes o) (address o') (bytes o')) /\
    (forall o, In o (objects s) -> deallocate natural (of_type o) (address o) (contents s) = answered o) /\
    (forall e, allowed natural s e -> exists s', step natural s e = Some s').
Proof. exact AllocatorMain.C60_allocator_partial_main. Qed.
Print Assumptions C60_allocator_partial.

Example C60_allocator_partial_ex :
  let A := mkallocator 32 32 32 in
  reachable 16 (mkstate [(1008, 128)] [mkobject A 1024 3 1008] (store_pointer (fun _ => 0) 1016 1008)) /\
  deallocate 16 A 1024 (store_pointer (fun _ => 0) 1016 1008) = 1008.
Proof.
  cbv zeta. split; [|vm_compute; reflexivity].
  apply (Next 16 (mkstate [] [] (fun _ => 0)) (Allocate (mkallocator 32 32 32) 3 (Some 1008))); [apply Start| |cbn; lia|reflexivity].
  cbn [allowed blocks]. split; [|split; [lia|]].
  - split; [cbn; lia|]. split; [exists 5; cbn; lia|]. split; [exists 1; reflexivity|exists 5; cbn; lia].
  - split; [lia|]. split; [vm_compute; reflexivity|]. split; [reflexivity|constructor].
Qed.

(** C60: allocate and deallocate change no byte of any object the program has. *)
Theorem C60_contents :
  forall natural s e s', power_of_two natural -> 8 <= natural -> reachable natural s -> allowed natural s e -> moderate e ->
    (forall a v, e <> Write a v) -> step natural s e = Some s' ->
    forall o x, In o (objects s) -> address o <= x < address o + bytes o -> contents s' x = contents s x.
Proof. exact AllocatorMain.C60_contents_main. Qed.
Print Assumptions C60_contents.

Example C60_contents_ex :
  allowed 16 (mkstate [] [] (fun _ => 0)) (Allocate (mkallocator 32 32 32) 3 (Some 1008)) /\ moderate (Allocate (mkallocator 32 32 32) 3 (Some 1008)).
Proof.
  split; [|cbn; lia]. cbn [allowed blocks]. split; [|split; [lia|]].
  - split; [cbn; lia|]. split; [exists 5; cbn; lia|]. split; [exists 1; reflexivity|exists 5; cbn; lia].
  - split; [lia|]. split; [vm_compute; reflexivity|]. split; [reflexivity|constructor].
Qed.

(** C60 is false without the restriction: Allocator<float_v>::allocate(max_size()) in an AVX build requests 0 bytes, because the
extra bytes make the size wrap, and returns an address although the storage it received holds not even one float_v. *)
Theorem C60_allocate_refuted :
  let A := mkallocator 32 32 32 in
  allowed 16 (mkstate [] [] (fun _ => 0)) (Allocate A (max_size A) (Some 4096)) /\
  exists s, step 16 (mkstate [] [] (fun _ => 0)) (Allocate A (max_size A) (Some 4096)) = Some s /\
    blocks s = [(4096, 0)] /\ map (fun o => (address o, bytes o)) (objects s) = [(4128, 2 ^ 64 - 32)].
Proof. exact AllocatorMain.C60_allocate_refuted_main. Qed.
Print Assumptions C60_allocate_refuted.

Example C60_allocate_refuted_ex :
  request 16 (mkallocator 32 32 32) (2 ^ 59 - 1) = 0 /\ request 16 (mkallocator 32 32 32) (2 ^ 59 - 2) = 2 ^ 64 - 32.
Proof.
  split; vm_compute; reflexivity.
Qed.

(** C61: makeContainer of a list that is not empty gives the smallest number of vectors that can hold the entries of the list;
the entries of the vectors are those of the list, in order, followed by zeros. *)
Theorem C61_make_container :
  forall (A : Type) (zero : A) size l, (1 <= size)%nat -> l <> [] ->
    exists vs, make_container zero size l = Some vs /\
      ((length vs - 1) * size < length l <= length vs * size)%nat /\ Forall (fun v => length v = size) vs /\
      concat vs = l ++ repeat zero (length vs * size - length l).
Proof. exact AllocatorMain.C61_make_container_main. Qed.
Print Assumptions C61_make_container.

Example C61_make_container_ex :
  make_container 0 4 [1; 2; 3; 4; 5] = Some [[1; 2; 3; 4]; [5; 0; 0; 0]].
Proof.
  vm_compute. reflexivity.
Qed.

(** C61 is false of the empty list: makeContainer of an empty list is undefined (it counts up to size - 1 with size = 0). *)
Theorem C61_empty_refuted :
  forall (A : Type) (zero : A) size, (1 <= size)%nat -> make_container zero size [] = None.
Proof. exact AllocatorMain.C61_empty_refuted_main. Qed.
Print Assumptions C61_empty_refuted.

Example C61_empty_refuted_ex :
  make_container 0 1 [7] = Some [[7]].
Proof.
  vm_compute. reflexivity.
Qed.
