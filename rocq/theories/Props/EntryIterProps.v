(** iterators over the entries of vectors and masks *)
From Coq Require Import ZArith List Bool Lia.
From Verif.Spec Require Import Seq NativeSpec LayoutSpec.
From Verif.Model Require Import SplitSize ScalarVec SimdArray SimdArrayOps SseBuild SortNet SseMove ElementRef EntryIter.
Import ListNotations.
Local Open Scope Z_scope.
From Verif.Proof Require EntryIterMain.

(** for (auto &&x : v) visits the entries of a vector, each once and in order, and assigning f(x) to them makes v the vector of the
f(x); also for masks. *)
Theorem C74_entries :
forall native n v, widths_ok native ->
  (forall (A : Type) (zero : A) (t : sa A) (f : A -> A), wf native n t ->
    exists steps, read_entries (SimdArray.get zero) steps t (entry_begin v) (entry_end v n) = Some (to_list t) /\
    exists t', update_entries (SimdArray.get zero) steps f t (entry_begin v) (entry_end v n) = Some t' /\ wf native n t' /\ to_list t' = map f (to_list t)) /\
  (forall (t : sa bool) (f : bool -> bool), wf native n t ->
    exists steps, read_entries mask_get steps t (entry_begin v) (entry_end v n) = Some (to_list t) /\
    exists t', update_entries mask_get steps f t (entry_begin v) (entry_end v n) = Some t' /\ wf native n t' /\ to_list t' = map f (to_list t)).
Proof. exact EntryIterMain.C74_entries_main. Qed.
Print Assumptions C74_entries.

Example C74_entries_ex :
let t := Node (Leaf [1; 2]) (Leaf [3]) in
read_entries (SimdArray.get 0) 3 t (entry_begin 7) (entry_end 7 3) = Some [1; 2; 3] /\
option_map to_list (update_entries (SimdArray.get 0) 3 (Z.mul 5) t (entry_begin 7) (entry_end 7 3)) = Some [5; 10; 15].
Proof.
vm_compute. split; reflexivity.
Qed.

(** Iterators of one vector: exactly one of <, == and > holds, all comparisons and the difference agree with the indexes, and ++, --, +
and - move by entries.  Missing: iterators of different vectors and the subscript, see the two theorems below. *)
Theorem C74_same_vector_partial :
forall v i j d,
  let a := plus (entry_begin v) i in let b := plus (entry_begin v) j in
  (equal a b = true <-> i = j) /\ (unequal a b = true <-> i <> j) /\ (less a b = true <-> i < j) /\ (less_equal a b = true <-> i <= j) /\
  (greater a b = true <-> i > j) /\ (greater_equal a b = true <-> i >= j) /\ difference a b = i - j /\
  plus a d = plus (entry_begin v) (i + d) /\ minus (plus a d) d = a /\ next a = plus a 1 /\ prev (next a) = a.
Proof. exact EntryIterMain.C74_same_vector_partial_main. Qed.
Print Assumptions C74_same_vector_partial.

Example C74_same_vector_partial_ex :
less (plus (entry_begin 7) 2) (entry_end 7 3) = true /\ difference (entry_end 7 3) (entry_begin 7) = 3.
Proof.
split; reflexivity.
Qed.

(** Iterators of different vectors are neither equal nor unequal: both == and != are false. *)
Theorem C74_different_vectors_refuted :
forall v w i j, v <> w ->
  let a := plus (entry_begin v) i in let b := plus (entry_begin w) j in equal a b = false /\ unequal a b = false.
Proof. exact EntryIterMain.C74_different_vectors_refuted_main. Qed.
Print Assumptions C74_different_vectors_refuted.

Example C74_different_vectors_refuted_ex :
equal (entry_begin 7) (entry_begin 8) = false.
Proof.
reflexivity.
Qed.

(** it[n] is not *(it + n): it is entry n of the vector wherever the iterator points. *)
Theorem C74_subscript_refuted :
forall (A : Type) (zero : A) native n (t : sa A) v k i, widths_ok native -> wf native n t -> 0 <= i < Z.of_nat n ->
  let it := plus (entry_begin v) k in
  subscript (SimdArray.get zero) t it i = Some (znth zero (to_list t) i) /\
  (0 <= k + i < Z.of_nat n -> deref (SimdArray.get zero) t (plus it i) = Some (znth zero (to_list t) (k + i))).
Proof. exact EntryIterMain.C74_subscript_refuted_main. Qed.
Print Assumptions C74_subscript_refuted.

Example C74_subscript_refuted_ex :
let t := Node (Leaf [1; 2]) (Leaf [3]) in let it := plus (entry_begin 7) 1 in
subscript (SimdArray.get 0) t it 1 = Some 2 /\ deref (SimdArray.get 0) t (plus it 1) = Some 3.
Proof.
split; reflexivity.
Qed.
