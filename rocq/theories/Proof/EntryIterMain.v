(** iterators over the entries of vectors and masks (proofs). *)
From Coq Require Import ZArith List Bool Lia.
From Verif.Spec Require Import Seq NativeSpec LayoutSpec.
From Verif.Model Require Import SplitSize ScalarVec SimdArray SimdArrayOps SseBuild SortNet SseMove ElementRef EntryIter.
Import ListNotations.
Local Open Scope Z_scope.
From Verif.Proof Require Import SeqP SplitSizeP SimdArrayP SimdArrayOpsP ElementRefMain.

Section Loops.
  Context {A : Type} (zero : A) (native : nat -> bool) (Hw : widths_ok native) (get : sa A -> Z -> option A).
  Hypothesis G : forall n t i, wf native n t -> 0 <= i < Z.of_nat n -> get t i = Some (znth zero (to_list t) i).
  Variables (n : nat) (v : Z).
  Lemma read_from k : forall i t, wf native n t -> 0 <= i -> i + Z.of_nat k = Z.of_nat n ->
    read_entries get k t {| on := v; at_index := i |} (entry_end v n) = Some (tab k (fun j => znth zero (to_list t) (i + j))).
  Proof using Hw G.
    induction k as [|k IH]; intros i t W I E; cbn [read_entries]; unfold unequal, same_vector, entry_end; cbn [on at_index]; rewrite Z.eqb_refl; cbn [andb].
    - replace (i =? Z.of_nat n) with true by (symmetry; apply Z.eqb_eq; lia). reflexivity.
    - replace (i =? Z.of_nat n) with false by (symmetry; apply Z.eqb_neq; lia). cbn [negb]. unfold deref, ref_read. cbn [at_index]. rewrite (G n t i W) by lia. cbn [obind].
      unfold next. cbn [on at_index]. change {| on := v; at_index := Z.of_nat n |} with (entry_end v n). rewrite IH by (auto; lia). cbn [obind]. f_equal.
      unfold tab. cbn [seq map]. rewrite <- seq_shift, map_map. f_equal; [f_equal; lia|]. apply map_ext. intros j. f_equal. lia.
  Qed.
  Lemma update_from (f : A -> A) (orig : list A) (L : length orig = n) k : forall i t, wf native n t -> 0 <= i -> i + Z.of_nat k = Z.of_nat n ->
    (forall j, 0 <= j < Z.of_nat n -> znth zero (to_list t) j = if j <? i then f (znth zero orig j) else znth zero orig j) ->
    exists t', update_entries get k f t {| on := v; at_index := i |} (entry_end v n) = Some t' /\ wf native n t' /\ to_list t' = map f orig.
  Proof using Hw G.
    induction k as [|k IH]; intros i t W I E V; cbn [update_entries]; unfold unequal, same_vector, entry_end; cbn [on at_index]; rewrite Z.eqb_refl; cbn [andb].
    - replace (i =? Z.of_nat n) with true by (symmetry; apply Z.eqb_eq; lia). exists t. split; [reflexivity|]. split; [exact W|].
      pose proof (wf_len native Hw _ _ W) as LT. apply (list_ext_z _ zero); [rewrite map_length; lia|].
      intros j J. rewrite V by lia. replace (j <? i) with true by (symmetry; apply Z.ltb_lt; lia).
      rewrite !znth_in by (rewrite ?map_length; lia). rewrite (nth_indep (map f orig) zero (f zero)) by (rewrite map_length; lia). rewrite map_nth. reflexivity.
    - replace (i =? Z.of_nat n) with false by (symmetry; apply Z.eqb_neq; lia). cbn [negb]. unfold deref_update, ref_compound. cbn [at_index]. rewrite (G n t i W) by lia. cbn [obind].
      unfold next. cbn [on at_index]. change {| on := v; at_index := Z.of_nat n |} with (entry_end v n).
      destruct (set_ok native zero Hw n t i (f (znth zero (to_list t) i)) W ltac:(lia)) as (W' & S). apply IH; [exact W'|lia|lia|].
      intros j J. rewrite S. destruct (Z.eqb_spec j i) as [->|N].
      + rewrite V by lia. rewrite Z.ltb_irrefl. replace (i <? i + 1) with true by (symmetry; apply Z.ltb_lt; lia). reflexivity.
      + rewrite V by lia. destruct (Z.ltb_spec j i), (Z.ltb_spec j (i + 1)); try reflexivity; lia.
  Qed.
  Lemma loops_ok (t : sa A) (f : A -> A) : wf native n t ->
    read_entries get n t (entry_begin v) (entry_end v n) = Some (to_list t) /\
    exists t', update_entries get n f t (entry_begin v) (entry_end v n) = Some t' /\ wf native n t' /\ to_list t' = map f (to_list t).
  Proof using Hw G.
    intro W. pose proof (wf_len native Hw _ _ W) as L. split.
    - unfold entry_begin. rewrite (read_from n 0 t W) by lia. f_equal. symmetry. apply (list_ext_tab _ zero). exact L. intros i I. f_equal.
    - unfold entry_begin. apply update_from; auto; try lia. intros j J. replace (j <? 0) with false by (symmetry; apply Z.ltb_ge; lia). reflexivity.
  Qed.
End Loops.

Lemma C74_entries_main :
forall native n v, widths_ok native ->
  (forall (A : Type) (zero : A) (t : sa A) (f : A -> A), wf native n t ->
    exists steps, read_entries (SimdArray.get zero) steps t (entry_begin v) (entry_end v n) = Some (to_list t) /\
    exists t', update_entries (SimdArray.get zero) steps f t (entry_begin v) (entry_end v n) = Some t' /\ wf native n t' /\ to_list t' = map f (to_list t)) /\
  (forall (t : sa bool) (f : bool -> bool), wf native n t ->
    exists steps, read_entries mask_get steps t (entry_begin v) (entry_end v n) = Some (to_list t) /\
    exists t', update_entries mask_get steps f t (entry_begin v) (entry_end v n) = Some t' /\ wf native n t' /\ to_list t' = map f (to_list t)).
Proof.
intros native n v Hw. split.
- intros A zero t f W. exists n. apply (loops_ok zero native Hw); [|exact W]. intros m t' i W' I. exact (proj1 (proj1 (C67_reference_main A zero native m t' t' i i Hw W' W') I I)).
- intros t f W. exists n. apply (loops_ok false native Hw); [|exact W]. intros m t' i W' I. exact (proj1 (proj1 (C67_mask_reference_main native m t' t' i i Hw W' W') I I)).
Qed.

Lemma C74_same_vector_partial_main :
forall v i j d,
  let a := plus (entry_begin v) i in let b := plus (entry_begin v) j in
  (equal a b = true <-> i = j) /\ (unequal a b = true <-> i <> j) /\ (less a b = true <-> i < j) /\ (less_equal a b = true <-> i <= j) /\
  (greater a b = true <-> i > j) /\ (greater_equal a b = true <-> i >= j) /\ difference a b = i - j /\
  plus a d = plus (entry_begin v) (i + d) /\ minus (plus a d) d = a /\ next a = plus a 1 /\ prev (next a) = a.
Proof.
intros v i j d a b. unfold a, b, equal, unequal, less, less_equal, greater, greater_equal, difference, plus, minus, next, prev, same_vector, entry_begin. cbn [on at_index]. rewrite Z.eqb_refl. cbn [andb Z.add].
rewrite negb_true_iff, Z.eqb_eq, Z.eqb_neq, Z.ltb_lt, Z.leb_le, Z.gtb_ltb, Z.ltb_lt, Z.geb_leb, Z.leb_le.
repeat match goal with |- _ /\ _ => split end; try lia; f_equal; lia.
Qed.

Lemma C74_different_vectors_refuted_main :
forall v w i j, v <> w ->
  let a := plus (entry_begin v) i in let b := plus (entry_begin w) j in equal a b = false /\ unequal a b = false.
Proof.
intros v w i j N a b. unfold a, b, equal, unequal, same_vector, plus, entry_begin. cbn [on]. rewrite (proj2 (Z.eqb_neq v w) N). split; reflexivity.
Qed.

Lemma C74_subscript_refuted_main :
forall (A : Type) (zero : A) native n (t : sa A) v k i, widths_ok native -> wf native n t -> 0 <= i < Z.of_nat n ->
  let it := plus (entry_begin v) k in
  subscript (SimdArray.get zero) t it i = Some (znth zero (to_list t) i) /\
  (0 <= k + i < Z.of_nat n -> deref (SimdArray.get zero) t (plus it i) = Some (znth zero (to_list t) (k + i))).
Proof.
intros A zero native n t v k i Hw W I it. unfold it, subscript, deref, plus, entry_begin. cbn [at_index]. split; [|intro K].
- exact (proj1 (proj1 (C67_reference_main A zero native n t t i i Hw W W) I I)).
- rewrite Z.add_0_l. exact (proj1 (proj1 (C67_reference_main A zero native n t t (k + i) (k + i) Hw W W) K K)).
Qed.
