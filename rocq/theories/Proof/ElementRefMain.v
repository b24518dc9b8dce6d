(** object layout of SimdArray and references to entries (proofs). *)
From Coq Require Import ZArith List Bool Lia.
From Verif.Spec Require Import Seq NativeSpec LayoutSpec.
From Verif.Model Require Import SplitSize ScalarVec SimdArray SimdArrayOps SseBuild SortNet SseMove ElementRef.
Import ListNotations.
Local Open Scope Z_scope.
From Verif.Proof Require Import SeqP SplitSizeP SimdArrayP SimdArrayOpsP ElementRefP.

Section Refs.
  Context {A : Type} (zero : A) (native : nat -> bool) (Hw : widths_ok native) (get : sa A -> Z -> option A).
  Hypothesis G : forall n t i, wf native n t -> 0 <= i < Z.of_nat n -> get t i = Some (znth zero (to_list t) i).
  Lemma set_replaced n (t : sa A) i v : wf native n t -> 0 <= i < Z.of_nat n -> wf native n (set t i v) /\ replaced (to_list t) i v (to_list (set t i v)).
  Proof.
    intros W I. destruct (set_ok native zero Hw n t i v W I) as (W' & S). split; [exact W'|]. pose proof (wf_len native Hw _ _ W) as L. pose proof (wf_len native Hw _ _ W') as L'.
    split; [congruence|]. intros k K. specialize (S k). rewrite !znth_in in S by lia. rewrite (nth_error_nth' _ zero) by lia. rewrite S. destruct (k =? i); [reflexivity|]. rewrite (nth_error_nth' (to_list t) zero) by lia. reflexivity.
  Qed.
  Lemma refs_ok n (t u : sa A) i j : wf native n t -> wf native n u -> 0 <= i < Z.of_nat n -> 0 <= j < Z.of_nat n ->
    let x := znth zero (to_list t) i in let y := znth zero (to_list t) j in let z := znth zero (to_list u) j in
    ref_read get t i = Some x /\
    (forall v, exists t', ref_assign get t i v = Some t' /\ wf native n t' /\ replaced (to_list t) i v (to_list t')) /\
    (forall f, exists t', ref_compound get f t i = Some t' /\ wf native n t' /\ replaced (to_list t) i (f x) (to_list t')) /\
    (forall f, exists t', ref_pre get f t i = Some t' /\ wf native n t' /\ replaced (to_list t) i (f x) (to_list t')) /\
    (forall f, exists t', ref_post get f t i = Some (x, t') /\ wf native n t' /\ replaced (to_list t) i (f x) (to_list t')) /\
    (exists t' u', ref_swap2 get t i u j = Some (t', u') /\ wf native n t' /\ wf native n u' /\ replaced (to_list t) i z (to_list t') /\ replaced (to_list u) j x (to_list u')) /\
    (exists t1 t2, ref_swap1 get t i j = Some t2 /\ wf native n t2 /\ replaced (to_list t) i y t1 /\ replaced t1 j x (to_list t2)) /\
    (forall v, exists t', ref_swap_value get t i v = Some (t', x) /\ wf native n t' /\ replaced (to_list t) i v (to_list t')).
  Proof.
    intros W Wu I J x y z. unfold ref_read, ref_assign, ref_compound, ref_pre, ref_post, ref_swap2, ref_swap1, ref_swap_value. rewrite (G n t i W I), (G n t j W J), (G n u j Wu J). cbn [obind].
    fold x. fold y. fold z.
    assert (S : forall v, exists t', Some (set t i v) = Some t' /\ wf native n t' /\ replaced (to_list t) i v (to_list t')) by (intros v; exists (set t i v); split; [reflexivity|now apply set_replaced]).
    split; [reflexivity|]. split; [exact S|]. split; [intros f; apply S|]. split; [intros f; apply S|]. split; [|split; [|split]].
    - intros f. exists (set t i (f x)). split; [reflexivity|now apply set_replaced].
    - exists (set t i z), (set u j x). split; [reflexivity|]. destruct (set_replaced n t i z W I), (set_replaced n u j x Wu J). auto.
    - destruct (set_replaced n t i y W I) as (W1 & R1). destruct (set_replaced n (set t i y) j x W1 J) as (W2 & R2). exists (to_list (set t i y)), (set (set t i y) j x). auto.
    - intros v. exists (set t i v). split; [reflexivity|now apply set_replaced].
  Qed.
End Refs.
Lemma mask_get_outside native n (t : sa bool) i : widths_ok native -> wf native n t -> ~ 0 <= i < Z.of_nat n -> mask_get t i = None.
Proof.
  intros Hw W. revert i. induction W as [n xs N L|n l r N Wl IHl Wr IHr]; intros i I.
  - cbn. subst n. destruct (Z.leb_spec 0 i), (Z.ltb_spec i (Z.of_nat (length xs))); cbn; auto; lia.
  - destruct (wf_size native Hw _ _ (wf_node _ _ _ _ N Wl Wr)) as (S1 & S2 & S3). pose proof (wf_isz native Hw _ _ Wl) as SL. destruct (right_left n (not_native_ge2 native Hw n S3 N)) as (R1 & R2).
    cbn [mask_get]. rewrite SL. destruct (Z.ltb_spec i (Z.of_nat (left_size n))); [apply IHl; lia|apply IHr; lia].
Qed.

Lemma C67_layout_main :
  forall native bound e n, widths_ok native -> (forall b, bound = Some b -> 0 <= b) -> 0 <= e -> (1 <= n)%nat ->
    let p := simdarray_placement native bound (2 ^ e) n in
    p_offsets p = tab n (fun i => i * 2 ^ e) /\ rounded_up (Z.of_nat n * 2 ^ e) (p_align p) (p_size p) /\
    (exists j, 0 <= j /\ p_align p = 2 ^ j) /\ (forall k, n = Nat.pow 2 k -> p_size p = Z.of_nat n * 2 ^ e).
Proof.
  intros native bound e n Hw Hb He N. cbv zeta. destruct (placement_ok native bound e Hw Hb He n n ltac:(lia)) as (k & j & K & J & A & S & O). unfold simdarray_placement.
  split; [exact O|]. split; [rewrite A, S; apply round_up_spec; apply Z.pow_pos_nonneg; lia|]. split; [exists j; split; [lia|exact A]|].
  intros q Q. rewrite S. apply round_up_multiple; [apply Z.pow_pos_nonneg; lia|]. destruct (next_pow2_spec n ltac:(lia)) as (x & X1 & X2 & X3). rewrite K in X1. apply Nat.pow_inj_r in X1; [|lia]. subst x.
  assert (k = q) by (apply (pow2_range_unique k q n); lia). subst k. rewrite Q. rewrite Nat2Z.inj_pow. rewrite <- Z.pow_add_r by lia. apply pow2_divide. cbn in *. lia.
Qed.

Lemma C67_reference_main :
  forall (A : Type) (zero : A) native n (t u : sa A) i j, widths_ok native -> wf native n t -> wf native n u ->
    let g := SimdArray.get zero in
    (0 <= i < Z.of_nat n -> 0 <= j < Z.of_nat n ->
      let x := znth zero (to_list t) i in let y := znth zero (to_list t) j in let z := znth zero (to_list u) j in
      ref_read g t i = Some x /\
      (forall v, exists t', ref_assign g t i v = Some t' /\ wf native n t' /\ replaced (to_list t) i v (to_list t')) /\
      (forall f, exists t', ref_compound g f t i = Some t' /\ wf native n t' /\ replaced (to_list t) i (f x) (to_list t')) /\
      (forall f, exists t', ref_pre g f t i = Some t' /\ wf native n t' /\ replaced (to_list t) i (f x) (to_list t')) /\
      (forall f, exists t', ref_post g f t i = Some (x, t') /\ wf native n t' /\ replaced (to_list t) i (f x) (to_list t')) /\
      (exists t' u', ref_swap2 g t i u j = Some (t', u') /\ wf native n t' /\ wf native n u' /\ replaced (to_list t) i z (to_list t') /\ replaced (to_list u) j x (to_list u')) /\
      (exists t1 t2, ref_swap1 g t i j = Some t2 /\ wf native n t2 /\ replaced (to_list t) i y t1 /\ replaced t1 j x (to_list t2)) /\
      (forall v, exists t', ref_swap_value g t i v = Some (t', x) /\ wf native n t' /\ replaced (to_list t) i v (to_list t'))) /\
    (~ 0 <= i < Z.of_nat n -> ref_read g t i = None /\ forall f, ref_compound g f t i = None).
Proof.
  intros A zero native n t u i j Hw W Wu g.
  assert (G : forall n t i, wf native n t -> 0 <= i < Z.of_nat n -> g t i = Some (znth zero (to_list t) i)).
  { intros n0 t0 i0 W0 I0. unfold g, SimdArray.get. rewrite (wf_isz native Hw _ _ W0). destruct (Z.leb_spec 0 i0), (Z.ltb_spec i0 (Z.of_nat n0)); cbn; auto; lia. }
  split; [intros I J; exact (refs_ok zero native Hw g G n t u i j W Wu I J)|].
  intros I. assert (N : g t i = None) by (unfold g, SimdArray.get; rewrite (wf_isz native Hw _ _ W); destruct (Z.leb_spec 0 i), (Z.ltb_spec i (Z.of_nat n)); cbn; auto; lia).
  unfold ref_read, ref_compound. rewrite N. split; reflexivity.
Qed.

Lemma C67_mask_reference_main :
  forall native n (t u : sa bool) i j, widths_ok native -> wf native n t -> wf native n u ->
    let g := mask_get in
    (0 <= i < Z.of_nat n -> 0 <= j < Z.of_nat n ->
      let x := znth false (to_list t) i in let y := znth false (to_list t) j in let z := znth false (to_list u) j in
      ref_read g t i = Some x /\
      (forall v, exists t', ref_assign g t i v = Some t' /\ wf native n t' /\ replaced (to_list t) i v (to_list t')) /\
      (forall f, exists t', ref_compound g f t i = Some t' /\ wf native n t' /\ replaced (to_list t) i (f x) (to_list t')) /\
      (forall f, exists t', ref_pre g f t i = Some t' /\ wf native n t' /\ replaced (to_list t) i (f x) (to_list t')) /\
      (forall f, exists t', ref_post g f t i = Some (x, t') /\ wf native n t' /\ replaced (to_list t) i (f x) (to_list t')) /\
      (exists t' u', ref_swap2 g t i u j = Some (t', u') /\ wf native n t' /\ wf native n u' /\ replaced (to_list t) i z (to_list t') /\ replaced (to_list u) j x (to_list u')) /\
      (exists t1 t2, ref_swap1 g t i j = Some t2 /\ wf native n t2 /\ replaced (to_list t) i y t1 /\ replaced t1 j x (to_list t2)) /\
      (forall v, exists t', ref_swap_value g t i v = Some (t', x) /\ wf native n t' /\ replaced (to_list t) i v (to_list t'))) /\
    (~ 0 <= i < Z.of_nat n -> ref_read g t i = None /\ forall f, ref_compound g f t i = None).
Proof.
  intros native n t u i j Hw W Wu g.
  split; [intros I J; exact (refs_ok false native Hw g (fun n t i => mask_get_ok native Hw n t i) n t u i j W Wu I J)|].
  intros I. unfold ref_read, ref_compound, g. rewrite (mask_get_outside native n t i Hw W I). split; reflexivity.
Qed.
