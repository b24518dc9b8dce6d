(** Meaning of simdized structs, iterators and types. *)
From Coq Require Import ZArith List.
From Verif.Spec Require Import Seq NativeSpec.
From Verif.Model Require Import SimdArray ScalarVec SseBuild Simdize Mem.
Import ListNotations.
Local Open Scope Z_scope.

(** A simdized struct with [k] members of [n] entries each.  The members may be of different vector types. *)
Definition adapter_ok {A} (n k : nat) (a : list (sa A)) : Prop :=
  length a = k /\ forall v, In v a -> exists native, widths_ok native /\ wf native n v.
(** The scalar struct with index [i] of a simdized struct: the i-th entries of all members *)
Definition object {A} (zero : A) (a : list (sa A)) (i : Z) : list A := map (fun v => znth zero (to_list v) i) a.

(** Calling a function with the indexes i, i + 1, ..., i + n - 1: the final state and the results *)
Fixpoint calls {S X} (f : S -> Z -> S * X) (n : nat) (i : Z) (s : S) : S * list X :=
  match n with
  | O => (s, [])
  | Datatypes.S n' => let (s', x) := f s i in let (s'', xs) := calls f n' (i + 1) s' in (s'', x :: xs)
  end.

(** The positions p .. p + n - 1 of a container hold the structs of [a], everything else is as in [m]. *)
Definition objects_written {A} (zero : A) (n : nat) (a : list (sa A)) (p : Z) (m m' : memory (list A)) : Prop :=
  forall q, m' q = if ((p <=? q) && (q <? p + Z.of_nat n))%bool then Some (object zero a (q - p)) else m q.
(** The positions p .. p + n - 1 of a container hold structs with [k] members. *)
Definition structs_at {A} (k n : nat) (p : Z) (m : memory (list A)) : Prop :=
  forall j, 0 <= j < Z.of_nat n -> exists x, m (p + j) = Some x /\ length x = k.

(** The scalar type a simdized type stands for *)
Fixpoint scalar_of (v : vty) : ty :=
  match v with
  | VPlain t => t
  | VVector e _ => TArith e
  | VMask _ _ => TBool
  | VAdapter _ c args _ => TTemplate c (map scalar_of args)
  | VIterator value _ => TIterator (scalar_of value)
  end.
(** All vectors, masks, simdized structs and iterators in a simdized type have [n] entries; a simdized struct knows its
    scalar type. *)
Inductive has_width (n : nat) : vty -> Prop :=
| width_plain t : has_width n (VPlain t)
| width_vector e : has_width n (VVector e n)
| width_mask e : has_width n (VMask e n)
| width_adapter c args : (forall v, In v args -> has_width n v) -> has_width n (VAdapter (TTemplate c (map scalar_of args)) c args n)
| width_iterator v : has_width n v -> has_width n (VIterator v n).
(** Types without anything to transform: no arithmetic types (other than as [TOther]) and no iterators. *)
Fixpoint nothing_to_do (t : ty) : Prop :=
  match t with
  | TBool | TArith _ | TIterator _ => False
  | TOther _ => True
  | TTemplate _ args => (fix all l := match l with [] => True | x :: l' => nothing_to_do x /\ all l' end) args
  end.
(** Types made of bool, arithmetic types, untransformed types and class templates *)
Fixpoint no_iterator (t : ty) : Prop :=
  match t with
  | TBool | TArith _ | TOther _ => True
  | TIterator _ => False
  | TTemplate _ args => (fix all l := match l with [] => True | x :: l' => no_iterator x /\ all l' end) args
  end.

(** For examples: two members with three entries each. *)
Definition example_members : list (sa Z) := [generate scalar_native 3 (fun i => i); generate scalar_native 3 (fun i => 10 + i)].
