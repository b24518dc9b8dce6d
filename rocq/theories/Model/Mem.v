(** Memory: a partial map from element addresses to values.  Reading or writing an unmapped address
    is undefined behaviour ([None]). *)
From Coq Require Import ZArith List Bool.
From Verif.Spec Require Import Seq.
Import ListNotations.
Local Open Scope Z_scope.

Definition memory (A : Type) := Z -> option A.

Definition mem_set {A} (m : memory A) (a : Z) (v : A) : memory A :=
  fun b => if b =? a then Some v else m b.

(** One scalar store. *)
Definition mem_write {A} (m : memory A) (a : Z) (v : A) : option (memory A) :=
  match m a with Some _ => Some (mem_set m a v) | None => None end.

(** Contiguous load of [n] entries (native vector load). *)
Fixpoint mem_load {A} (m : memory A) (base : Z) (n : nat) : option (list A) :=
  match n with
  | O => Some []
  | S n' =>
      match m base with
      | None => None
      | Some x => option_map (cons x) (mem_load m (base + 1) n')
      end
  end.

(** Contiguous store (native vector store). *)
Fixpoint mem_store {A} (m : memory A) (base : Z) (xs : list A) : option (memory A) :=
  match xs with
  | [] => Some m
  | x :: xs' =>
      match mem_write m base x with
      | None => None
      | Some m' => mem_store m' (base + 1) xs'
      end
  end.
