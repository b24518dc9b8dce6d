(** Meaning of reading and writing the first members of structs that are scattered in memory. *)
From Coq Require Import ZArith List.
From Verif.Spec Require Import Seq.
From Verif.Model Require Import Mem Interleave.
Import ListNotations.
Local Open Scope Z_scope.

(** the address of member [c] of the struct for element [e]; [i] gives the offset of the struct *)
Definition member (data : Z) (i : Z -> Z) (e c : nat) : Z := data + i (Z.of_nat e) + Z.of_nat c.

(** Members 0 .. [length vs - 1] of the [n] structs hold the entries of [vs], and nothing else has changed. *)
Definition structs_written {A} (n : nat) (data : Z) (i : Z -> Z) (vs : list (list A)) (m m' : memory A) : Prop :=
  (forall e c v, (e < n)%nat -> nth_error vs c = Some v -> m' (member data i e c) = nth_error v e) /\
  (forall a, (forall e c, (e < n)%nat -> (c < length vs)%nat -> a <> member data i e c) -> m' a = m a).
(** [vs] are [k] vectors of [n] entries with the members 0 .. [k - 1]. *)
Definition structs_read {A} (n k : nat) (data : Z) (i : Z -> Z) (m : memory A) (vs : list (list A)) : Prop :=
  length vs = k /\
  forall c v, nth_error vs c = Some v -> length v = n /\ forall e, (e < n)%nat -> m (member data i e c) = nth_error v e.

(** The first [k] members of different structs do not overlap. *)
Definition disjoint_structs (n k : nat) (i : Z -> Z) : Prop :=
  forall e e', (e < n)%nat -> (e' < n)%nat -> e <> e' ->
    i (Z.of_nat e) + Z.of_nat k <= i (Z.of_nat e') \/ i (Z.of_nat e') + Z.of_nat k <= i (Z.of_nat e).
(** The first [k] members of all structs are allocated. *)
Definition members_mapped {A} (n k : nat) (data : Z) (i : Z -> Z) (m : memory A) : Prop :=
  forall e c, (e < n)%nat -> (c < k)%nat -> m (member data i e c) <> None.

(** The number of members the shuffles read to return [k] vectors with [n] entries. *)
Definition members_read (n k : nat) : nat :=
  match n, k with
  | 8%nat, (5 | 6 | 7)%nat => 8%nat
  | 8%nat, 3%nat | 4%nat, 3%nat => 4%nat
  | 4%nat, 7%nat => 8%nat
  | _, _ => k
  end.

(** ** InterleavedMemoryWrapper *)
(** The offset of the struct for element [e], in entries: the struct with index idx\[e\], or first + e *)
Definition struct_offset (struct_size : nat) (s : subscript) (e : Z) : Z :=
  match s with
  | Indexes idx => znth 0 idx e * Z.of_nat struct_size
  | First f => (f + e) * Z.of_nat struct_size
  end.
(** The offsets are representable: as int for index vectors, as size_t for successive structs. *)
Definition offsets_representable (n struct_size : nat) (s : subscript) : Prop :=
  match s with
  | Indexes idx => length idx = n /\ forall x, In x idx -> - 2 ^ 31 <= x * Z.of_nat struct_size < 2 ^ 31
  | First f => 0 <= f /\ (f + Z.of_nat n) * Z.of_nat struct_size <= 2 ^ 64
  end.
Definition different_structs (s : subscript) : Prop :=
  match s with Indexes idx => NoDup idx | First _ => True end.

(** For examples: the memory with [xs] at address [base] and nothing else. *)
Definition mem_of_list {A} (base : Z) (xs : list A) : memory A :=
  fun a => if ((base <=? a) && (a <? base + Z.of_nat (length xs)))%bool then nth_error xs (Z.to_nat (a - base)) else None.

(** The same for AVX vectors; structs that are packed one after the other with exactly three members are read
    without touching anything else. *)
Definition avx_members_read (n k : nat) (kind : index_kind) : nat :=
  let packed3 := match kind with Successive 3%nat => true | _ => false end in
  match n, k with
  | 16%nat, 3%nat => 4%nat
  | 16%nat, (5 | 6 | 7)%nat => 8%nat
  | 8%nat, 3%nat => if packed3 then 3%nat else 4%nat
  | 8%nat, 7%nat => if packed3 then 7%nat else 8%nat
  | _, _ => k
  end.
