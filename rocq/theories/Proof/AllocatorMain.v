(** Vc::Allocator and Vc::makeContainer (proofs). *)
From Coq Require Import ZArith List Bool Lia.
From Verif.Spec Require Import AllocatorSpec.
From Verif.Model Require Import MemoryClass Allocator MakeContainer.
Import ListNotations.
Local Open Scope Z_scope.
From Verif.Proof Require Import AllocatorP MakeContainerP.

Lemma C60_allocator_partial_main :
  forall natural s, power_of_two natural -> 8 <= natural -> reachable natural s ->
    (forall o, In o (objects s) -> (alignof_t (of_type o) | address o) /\ (simd_alignment (of_type o) | address o) /\
                                   exists b, In b (blocks s) /\ in_block (address o) (bytes o) b) /\
    (forall i j o o', i <> j -> nth_error (objects s) i = Some o -> nth_error (objects s) j = Some o' ->
       apart (address o) (bytes o) (address o') (bytes o')) /\
    (forall o, In o (objects s) -> deallocate natural (of_type o) (address o) (contents s) = answered o) /\
    (forall e, allowed natural s e -> exists s', step natural s e = Some s').
Proof.
  intros natural s NP N8 R. pose proof (reachable_invariant natural NP N8 s R) as INV. pose proof INV as (L & D).
  assert (K : forall i o, nth_error (objects s) i = Some o -> exists b, nth_error (blocks s) i = Some b /\ linked natural (contents s) o b).
  { intros i o E. destruct (delete_without natural _ _ _ i o L D E) as (b & B & LB & _). exists b. auto. }
  split; [|split; [|split]].
  - intros o I. destruct (In_nth_error _ _ I) as (i & E). destruct (K i o E) as (b & B & LB). pose proof LB as (TA & _ & _ & _ & AL & _).
    destruct (align_divides _ TA) as (X & Y). split; [apply Z.divide_trans with (alignment (of_type o)); auto|]. split; [apply Z.divide_trans with (alignment (of_type o)); auto|].
    exists b. split; [apply nth_error_In with i; auto|]. apply (linked_in natural _ _ _ LB).
  - intros i j o o' NE E E'. destruct (K i o E) as (b & B & LB), (K j o' E') as (b' & B' & LB').
    pose proof (linked_in natural _ _ _ LB) as (U1 & U2). pose proof (linked_in natural _ _ _ LB') as (V1 & V2).
    assert (S : separate b b' \/ separate b' b).
    { clear - NE B B' D. revert i j NE B B'. induction D as [|x xs F D IH]; intros [|i] [|j] NE B B'; try discriminate; try congruence; cbn [nth_error] in *.
      - injection B as ->. left. rewrite Forall_forall in F. apply F. apply nth_error_In with j; auto.
      - injection B' as ->. right. rewrite Forall_forall in F. apply F. apply nth_error_In with i; auto.
      - apply (IH i j); auto. }
    assert (P : 0 <= snd b /\ 0 <= snd b') by (destruct LB as (_ & _ & _ & P & _), LB' as (_ & _ & _ & P' & _); auto).
    pose proof (bytes_nonneg natural _ _ _ LB). pose proof (bytes_nonneg natural _ _ _ LB').
    unfold separate, apart in *. destruct (Z.eq_dec (snd b) 0), (Z.eq_dec (snd b') 0); lia.
  - intros o I. destruct (In_nth_error _ _ I) as (i & E). destruct (K i o E) as (b & B & LB). rewrite (linked_deallocate natural _ _ _ LB). apply LB.
  - intros e AL. apply (step_defined natural s e INV AL).
Qed.

Lemma C60_contents_main :
  forall natural s e s', power_of_two natural -> 8 <= natural -> reachable natural s -> allowed natural s e -> moderate e ->
    (forall a v, e <> Write a v) -> step natural s e = Some s' ->
    forall o x, In o (objects s) -> address o <= x < address o + bytes o -> contents s' x = contents s x.
Proof.
  intros natural s e s' NP N8 R AL MO NW E o x I X. pose proof (reachable_invariant natural NP N8 s R) as INV. pose proof INV as (L & D).
  destruct e as [A n answer|i|a v]; cbn [step allowed moderate] in *; [| |now elim (NW a v)].
  - destruct AL as (HA & Hn & NB). destruct (allocate natural A n answer (contents s)) as [[m p]|] eqn:EA; [|destruct answer; injection E as <-; auto].
    destruct answer as [pp|]; [|injection E as <-; auto]. injection E as <-. cbn [contents].
    destruct (allocate_linked natural NP N8 s A n pp m p INV HA Hn MO NB EA) as (_ & KEEP).
    destruct (In_nth_error _ _ I) as (i & EI). destruct (delete_without natural _ _ _ i o L D EI) as (b & B & LB & _).
    apply (KEEP b); [apply nth_error_In with i; auto|]. pose proof (linked_in natural _ _ _ LB) as (U1 & U2). lia.
  - destruct (nth_error (objects s) i); [|discriminate E]. destruct (delete _ _); [|discriminate E]. injection E as <-. reflexivity.
Qed.

Lemma C60_allocate_refuted_main :
  let A := mkallocator 32 32 32 in
  allowed 16 (mkstate [] [] (fun _ => 0)) (Allocate A (max_size A) (Some 4096)) /\
  exists s, step 16 (mkstate [] [] (fun _ => 0)) (Allocate A (max_size A) (Some 4096)) = Some s /\
    blocks s = [(4096, 0)] /\ map (fun o => (address o, bytes o)) (objects s) = [(4128, 2 ^ 64 - 32)].
Proof.
  cbv zeta. split.
  - cbn [allowed blocks]. split; [|split; [vm_compute; split; congruence|]].
    + split; [cbn; lia|]. split; [exists 5; cbn; lia|]. split; [exists 1; reflexivity|exists 5; cbn; lia].
    + split; [lia|]. split; [vm_compute; reflexivity|]. split; [reflexivity|constructor].
  - eexists. split; [reflexivity|]. split; vm_compute; reflexivity.
Qed.

Lemma C61_make_container_main :
  forall (A : Type) (zero : A) size l, (1 <= size)%nat -> l <> [] ->
    exists vs, make_container zero size l = Some vs /\
      ((length vs - 1) * size < length l <= length vs * size)%nat /\ Forall (fun v => length v = size) vs /\
      concat vs = l ++ repeat zero (length vs * size - length l).
Proof.
  intros A zero size l H N. exact (make_container_ok zero size H l N).
Qed.

Lemma C61_empty_refuted_main :
  forall (A : Type) (zero : A) size, (1 <= size)%nat -> make_container zero size [] = None.
Proof.
  intros A zero size H. unfold make_container, container_size. cbn [length Nat.add]. rewrite Nat.div_small by lia. reflexivity.
Qed.
