(** Meaning of iterating over a mask, of gather and of scatter. *)
From Coq Require Import ZArith List Bool.
From Verif.Spec Require Import Seq NativeSpec OperandSpec.
From Verif.Model Require Import Mem SimdArrayOps GatherScatter.
Import ListNotations.
Local Open Scope Z_scope.

(** The indexes of the set entries in ascending order. *)
Definition true_indices (m : list bool) : list Z :=
  filter (fun i => znth false m i) (tab (length m) (fun i => i)).

(** The i-th index an index argument stands for. *)
Definition index_at (x : index_arg) (i : Z) : Z :=
  match x with
  | IxOperand o => operand_at 0 o i
  | IxPointer a k => znth 0 a (Z.of_nat k + i)
  end.
(** An index argument for n entries: a SIMD object with n entries or an array with at least n entries. *)
Definition index_ok (n : nat) (x : index_arg) : Prop :=
  match x with
  | IxOperand o => operand_ok n o
  | IxPointer a k => (k + n <= length a)%nat
  end.

(** gather: entry i is mem[idx i] where the mask is set, the old value otherwise. *)
Definition gathered {A} (zero : A) (m : memory A) (mem : Z) (idx : Z -> Z) (sel : Z -> bool) (old new : list A) : Prop :=
  length new = length old /\
  forall i, 0 <= i < Z.of_nat (length old) ->
    if sel i then m (mem + idx i) = Some (znth zero new i) else znth zero new i = znth zero old i.

(** scatter: m' is m except that each address hit by a selected entry holds the value of one such entry. *)
Definition scattered {A} (zero : A) (v : list A) (mem : Z) (idx : Z -> Z) (sel : Z -> bool) (m m' : memory A) : Prop :=
  forall a,
    (m' a = m a /\ forall i, 0 <= i < Z.of_nat (length v) -> sel i = true -> mem + idx i <> a) \/
    (exists i, 0 <= i < Z.of_nat (length v) /\ sel i = true /\ mem + idx i = a /\ m' a = Some (znth zero v i)).
(** ... namely of the last one. *)
Definition scattered_last {A} (zero : A) (v : list A) (mem : Z) (idx : Z -> Z) (sel : Z -> bool) (m m' : memory A) : Prop :=
  forall a,
    (m' a = m a /\ forall i, 0 <= i < Z.of_nat (length v) -> sel i = true -> mem + idx i <> a) \/
    (exists i, 0 <= i < Z.of_nat (length v) /\ sel i = true /\ mem + idx i = a /\ m' a = Some (znth zero v i) /\
       forall j, i < j < Z.of_nat (length v) -> sel j = true -> mem + idx j <> a).
(** Every selected address is valid. *)
Definition mapped {A} (m : memory A) (mem : Z) (idx : Z -> Z) (n : nat) (sel : Z -> bool) : Prop :=
  forall i, 0 <= i < Z.of_nat n -> sel i = true -> m (mem + idx i) <> None.
