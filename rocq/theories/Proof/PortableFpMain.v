(** floating-point programs give the same results in every build (proofs). *)
From Coq Require Import ZArith List Bool Lia Permutation.
From Verif.Spec Require Import Seq FloatSpec RoundSpec MaskSpec VectorSpec NativeSpec PortableSpec PortableFpSpec.
From Verif.Model Require Import Word Fp FpArith SseBuild SimdArray Mem MaskedDiv Program Portable PortableFp.
Import ListNotations.
Local Open Scope Z_scope.
From Verif.Proof Require Import SeqP FpP SseArithP SseFloatRedP PortableP PortableOpsP PortableFpP PortableFpSortP PortableFpSumP PortableFpProdP PortableFpPsumP PortableFpMaskSumP PortableFpMaskProdP PortableFpSimP.

Lemma fstart_rel b e n H m (h : H) : (1 <= n)%nat ->
  rel_state b e n (start (b_zero b e n) (b_none b e n) m h) (start (repeat (w0 _) n) (repeat false n) m h).
Proof.
  intros Hn. assert (G : forall A (c : A), tab n (fun _ => c) = repeat c n). { intros A c. unfold tab. generalize 0%nat. induction n as [|k IH]; intros z; [reflexivity|]. cbn. destruct k; [reflexivity|]. f_equal. apply IH. lia. }
  refine (conj eq_refl (conj (fun _ => eq_refl) (conj _ _))); intros i; cbn [start vr mr]; rewrite <- G; now apply generate_sim.
Qed.

Lemma C83_fp_portable_partial_main :
  forall b e n H (p : prog (elt e) H) fuel m h s, is_integer e = false -> (1 <= n)%nat ->
    run (fp_reference e n) fuel p (start (repeat (w0 _) n) (repeat false n) m h) = Some s ->
    exists s', run (fp_implementation b e n) fuel p (start (b_zero b e n) (b_none b e n) m h) = Some s' /\
      hs s' = hs s /\ (forall a, mm s' a = mm s a) /\
      (forall i, to_list (vr s' i) = vr s i) /\ (forall i, to_list (mr s' i) = mr s i).
Proof.
  intros b e n H p fuel m h s F Hn D. destruct (frun_sim b e F n Hn fuel p _ _ s (fstart_rel b e n H m h Hn) D) as (s' & E & R1 & R2 & R3 & R4).
  exists s'. split; [exact E|]. split; [exact R1|]. split; [exact R2|]. split; intros i; [apply R3|apply R4].
Qed.

Lemma C83_fp_builds_agree_partial_main :
  forall b b' e n H (p : prog (elt e) H) fuel m h, is_integer e = false -> (1 <= n)%nat ->
    run (fp_reference e n) fuel p (start (repeat (w0 _) n) (repeat false n) m h) <> None ->
    exists s s', run (fp_implementation b e n) fuel p (start (b_zero b e n) (b_none b e n) m h) = Some s /\
      run (fp_implementation b' e n) fuel p (start (b_zero b' e n) (b_none b' e n) m h) = Some s' /\
      hs s = hs s' /\ (forall a, mm s a = mm s' a) /\
      (forall i, to_list (vr s i) = to_list (vr s' i)) /\ (forall i, to_list (mr s i) = to_list (mr s' i)).
Proof.
  intros b b' e n H p fuel m h I Hn D. destruct (run (fp_reference e n) fuel p (start (repeat (w0 _) n) (repeat false n) m h)) as [s|] eqn:E; [|contradiction].
  destruct (C83_fp_portable_partial_main b e n H p fuel m h s I Hn E) as (s1 & A0 & A1 & A2 & A3 & A4). destruct (C83_fp_portable_partial_main b' e n H p fuel m h s I Hn E) as (s2 & B0 & B1 & B2 & B3 & B4).
  exists s1, s2. repeat split; auto; intros; congruence.
Qed.

Lemma C83_sum_refuted_main :
  exists (b b' : build) (p : prog (elt Float) Z) (s s' : state (elt Float) Z (sa (elt Float)) (sa bool)), let m : memory (elt Float) := fun _ => None in
    run (fp_implementation b Float 4) 10 p (start (b_zero b Float 4) (b_none b Float 4) m 0) = Some s /\ hs s = uval (of_int 4 (2 ^ 24)) /\
    run (fp_implementation b' Float 4) 10 p (start (b_zero b' Float 4) (b_none b' Float 4) m 0) = Some s' /\ hs s' = uval (of_int 4 (2 ^ 24 + 2)).
Proof.
  pose (b := {| b_impl := DScalar; b_ssse3 := false; b_ptest := false; b_popcnt := false; b_constant := false |}).
  pose (b' := {| b_impl := DSse true; b_ssse3 := true; b_ptest := true; b_popcnt := true; b_constant := true |}).
  pose (p := PSeq (PDo (IGenerate 0 (fun (_ : Z) i => of_int 4 (nth (Z.to_nat i) [2 ^ 24; 1; 1; 0] 0)))) (PDo (IReduce RSum 0 (fun (a : elt Float) _ => uval a)))).
  assert (A : option_map hs (run (fp_implementation b Float 4) 10 p (start (b_zero b Float 4) (b_none b Float 4) (fun _ => None) 0)) = Some (uval (of_int 4 (2 ^ 24)))) by (vm_compute; reflexivity).
  assert (B : option_map hs (run (fp_implementation b' Float 4) 10 p (start (b_zero b' Float 4) (b_none b' Float 4) (fun _ => None) 0)) = Some (uval (of_int 4 (2 ^ 24 + 2)))) by (vm_compute; reflexivity).
  exists b, b', p. destruct (run (fp_implementation b Float 4) 10 p (start (b_zero b Float 4) (b_none b Float 4) (fun _ => None) 0)) as [s|] eqn:E; [|discriminate A].
  destruct (run (fp_implementation b' Float 4) 10 p (start (b_zero b' Float 4) (b_none b' Float 4) (fun _ => None) 0)) as [s'|] eqn:E'; [|discriminate B].
  assert (A' : hs s = uval (of_int 4 (2 ^ 24))) by exact (f_equal (fun o => match o with Some z => z | None => 0 end) A).
  assert (B' : hs s' = uval (of_int 4 (2 ^ 24 + 2))) by exact (f_equal (fun o => match o with Some z => z | None => 0 end) B).
  exists s, s'. exact (conj E (conj A' (conj E' B'))).
Qed.

Lemma C83_nan_refuted_main :
  exists (b b' : build) (p : prog (elt Double) bool) (s s' : state (elt Double) bool (sa (elt Double)) (sa bool)), let m : memory (elt Double) := fun _ => None in
    run (fp_implementation b Double 2) 10 p (start (b_zero b Double 2) (b_none b Double 2) m true) = Some s /\ hs s = false /\
    run (fp_implementation b' Double 2) 10 p (start (b_zero b' Double 2) (b_none b' Double 2) m true) = Some s' /\ hs s' = true.
Proof.
  pose (b := {| b_impl := DScalar; b_ssse3 := false; b_ptest := false; b_popcnt := false; b_constant := false |}).
  pose (b' := {| b_impl := DSse true; b_ssse3 := true; b_ptest := true; b_popcnt := true; b_constant := true |}).
  pose (p := PSeq (PDo (IGenerate 0 (fun (_ : bool) _ => a_nan 8))) (PSeq (PDo (ICompare OGe 0 0 0)) (PDo (INotEmpty (E := elt Double) 0 (fun v _ => v))))).
  assert (A : option_map hs (run (fp_implementation b Double 2) 10 p (start (b_zero b Double 2) (b_none b Double 2) (fun _ => None) true)) = Some false) by (vm_compute; reflexivity).
  assert (B : option_map hs (run (fp_implementation b' Double 2) 10 p (start (b_zero b' Double 2) (b_none b' Double 2) (fun _ => None) true)) = Some true) by (vm_compute; reflexivity).
  exists b, b', p. destruct (run (fp_implementation b Double 2) 10 p (start (b_zero b Double 2) (b_none b Double 2) (fun _ => None) true)) as [s|] eqn:E; [|discriminate A].
  destruct (run (fp_implementation b' Double 2) 10 p (start (b_zero b' Double 2) (b_none b' Double 2) (fun _ => None) true)) as [s'|] eqn:E'; [|discriminate B].
  injection A as A. injection B as B. exists s, s'. exact (conj E (conj A (conj E' B))).
Qed.

Lemma C13_array_float_min_max_main :
  forall b e n (t : sa (elt e)), is_integer e = false -> wf (b_native b e) n t -> (forall x, In x (to_list t) -> is_NaN x = false) ->
    exists lo hi, b_freduce b e RMin t = Some lo /\ least float_le (to_list t) lo /\
      b_freduce b e RMax t = Some hi /\ greatest float_le (to_list t) hi.
Proof.
  intros b e n t F W N. assert (NN : forall x, In x (to_list t) -> nn x) by (intros x Hx; unfold nn; rewrite <- (nan_ok (float_fp e F)); now apply N).
  destruct (min_ok b e F n t W NN) as (lo & L1 & L2). destruct (max_ok b e F n t W NN) as (hi & H1 & H2). exists lo, hi. split; [exact L1|]. split; [now apply (lst_least e), best_lst|]. split; [exact H1|]. now apply (grt_greatest e), best_grt.
Qed.

Lemma C13_array_float_product_main :
  forall b e n (t : sa (elt e)), is_integer e = false -> wf (b_native b e) n t -> products_exact (to_list t) = true ->
    exists r, b_freduce b e RProduct t = Some r /\ is_Finite r = true /\
      fvalue r = fone (esize e) * fold_right (fun x p => fvalue x / fone (esize e) * p) 1 (to_list t).
Proof.
  intros b e n t F W S. pose proof (products_pfits (float_fp e F) _ S) as H.
  destruct (freduce_product b e F (size t) n t W ltac:(apply Nat.eq_le_incl; symmetry; exact (SimdArrayP.wf_sz _ (Ww b e) _ _ W)) H) as (r & R & P). exists r. split; [exact R|]. split; [exact (proj1 P)|].
  assert (E : fone (esize e) = one_units (esize e)) by (destruct (float_fp e F) as [->| ->]; reflexivity). rewrite E, (pm_value (float_fp e F) _ _ P), (int_product (float_fp e F) _ (proj1 H)). apply Z.mul_comm.
Qed.

Lemma C13_array_float_sum_main :
  forall b e n (t : sa (elt e)), is_integer e = false -> wf (b_native b e) n t -> sums_exact (to_list t) = true ->
    exists r, b_freduce b e RSum t = Some r /\ is_Finite r = true /\ fvalue r = fold_right (fun x s => fvalue x + s) 0 (to_list t).
Proof.
  intros b e n t F W S. destruct (exact_fits (float_fp e F) _ S) as (k & K & KT & H).
  destruct (freduce_sum b e F k K KT (size t) n t W ltac:(apply Nat.eq_le_incl; symmetry; exact (SimdArrayP.wf_sz _ (Ww b e) _ _ W)) H) as (r & R & R1 & R2 & _). exists r. auto.
Qed.

Lemma C14_array_float_masked_sum_main :
  forall b e n (t : sa (elt e)) k, is_integer e = false -> wf (b_native b e) n t -> wf (b_native b e) n k ->
    sums_exact (select_spec (to_list k) (to_list t)) = true ->
    (forall x, In x (select_spec (to_list k) (to_list t)) -> sign_bit x = true -> fvalue x <> 0) ->
    exists r, o_reduce_mask (fp_implementation b e n) RSum t k = Some r /\ is_Finite r = true /\
      fvalue r = fold_right (fun x s => fvalue x + s) 0 (select_spec (to_list k) (to_list t)).
Proof.
  intros b e n t k F W V S N. destruct (exact_good (float_fp e F) _ S) as (j & J & JT & G).
  { destruct (@existsb (word (esize e)) (fun x => sign_bit x && (fvalue x =? 0)) (select_spec (to_list k) (to_list t))) eqn:Q; [|reflexivity]. apply existsb_exists in Q as (x & I & Q). apply andb_true_iff in Q as (Q1 & Q2). apply Z.eqb_eq in Q2. destruct (N x I Q1 Q2). }
  destruct (mask_sum b e F j J JT (masks_ok b e) n t W k V G) as (r & R & (R1 & _) & R2 & _). exists r. split; [exact R|]. split; [exact R1|exact R2].
Qed.

Lemma C14_array_float_masked_product_main :
  forall b e n (t : sa (elt e)) k, is_integer e = false -> wf (b_native b e) n t -> wf (b_native b e) n k ->
    products_exact (select_spec (to_list k) (to_list t)) = true ->
    exists r, o_reduce_mask (fp_implementation b e n) RProduct t k = Some r /\ is_Finite r = true /\
      fvalue r = fone (esize e) * fold_right (fun x p => fvalue x / fone (esize e) * p) 1 (select_spec (to_list k) (to_list t)).
Proof.
  intros b e n t k F W V S. pose proof (products_pfits (float_fp e F) _ S) as H.
  destruct (mask_product b e F (masks_ok b e) n t W k V H) as (r & R & P). exists r. split; [exact R|]. split; [exact (proj1 P)|].
  assert (E : fone (esize e) = one_units (esize e)) by (destruct (float_fp e F) as [->| ->]; reflexivity). rewrite E, (pm_value (float_fp e F) _ _ P), (int_product (float_fp e F) _ (proj1 H)). apply Z.mul_comm.
Qed.

Lemma C12_array_float_partial_sum_main :
  forall b e n (t : sa (elt e)), is_integer e = false -> wf (b_native b e) n t -> sums_exact (to_list t) = true ->
    (forall x, In x (to_list t) -> sign_bit x = true -> fvalue x <> 0) ->
    exists r, b_fpartial_sum b e t = Some r /\ wf (b_native b e) n r /\
      forall i, (i < n)%nat -> is_Finite (nth i (to_list r) (w0 _)) = true /\
        fvalue (nth i (to_list r) (w0 _)) = fold_right (fun x s => fvalue x + s) 0 (firstn (S i) (to_list t)).
Proof.
  intros b e n t F W S N. destruct (exact_good (float_fp e F) _ S) as (k & K & KT & G).
  { destruct (@existsb (word (esize e)) (fun x => sign_bit x && (fvalue x =? 0)) (to_list t)) eqn:Q; [|reflexivity]. apply existsb_exists in Q as (x & I & Q). apply andb_true_iff in Q as (Q1 & Q2). apply Z.eqb_eq in Q2. destruct (N x I Q1 Q2). }
  destruct (psum_ok b e F k K KT n t W G) as (r & R & R1 & R2). exists r. split; [exact R|]. split; [exact R1|]. intros i Hi. pose proof (SimdArrayP.wf_len _ (Ww b e) _ _ W) as L. unfold elt in R2, L |- *. rewrite R2.
  apply (psum_values (float_fp e F) k K KT (to_list t) G). exact (Nat.lt_le_trans _ _ _ Hi (Nat.eq_le_incl _ _ (eq_sym L))).
Qed.

Lemma C12_negative_zero_refuted_main :
  exists (b b' : build) (f : Z -> elt Float) r r', let t := generate (b_native b Float) 4 f in let t' := generate (b_native b' Float) 4 f in
    b_fpartial_sum b Float t = Some r /\ b_fpartial_sum b' Float t' = Some r' /\ to_list t = to_list t' /\ sums_exact (to_list t) = true /\
    map uval (to_list r) = [2 ^ 31; 0; 0; 0] /\ map uval (to_list r') = [0; 0; 0; 0].
Proof.
  pose (b := {| b_impl := DScalar; b_ssse3 := false; b_ptest := false; b_popcnt := false; b_constant := false |}).
  pose (b' := {| b_impl := DSse true; b_ssse3 := true; b_ptest := true; b_popcnt := true; b_constant := true |}).
  pose (f := fun i : Z => if i =? 0 then mkw 4 (2 ^ 31) else w0 4).
  assert (A : option_map (fun r => map uval (to_list r)) (b_fpartial_sum b Float (generate (b_native b Float) 4 f)) = Some [2 ^ 31; 0; 0; 0]) by (vm_compute; reflexivity).
  assert (B : option_map (fun r => map uval (to_list r)) (b_fpartial_sum b' Float (generate (b_native b' Float) 4 f)) = Some [0; 0; 0; 0]) by (vm_compute; reflexivity).
  exists b, b', f. destruct (b_fpartial_sum b Float (generate (b_native b Float) 4 f)) as [r|] eqn:E; [|discriminate A].
  destruct (b_fpartial_sum b' Float (generate (b_native b' Float) 4 f)) as [r'|] eqn:E'; [|discriminate B].
  injection A as A. injection B as B. exists r, r'. split; [exact E|]. split; [exact E'|]. split; [reflexivity|]. split; [vm_compute; reflexivity|]. exact (conj A B).
Qed.

Lemma C11_array_sorted_float_main :
  forall b e n (t : sa (elt e)), is_integer e = false -> wf (b_native b e) n t -> (forall x, In x (to_list t) -> is_NaN x = false) ->
    exists r, b_fsorted b e t = Some r /\ wf (b_native b e) n r /\ sorted_spec float_le (to_list r) /\
      Permutation (map fvalue (to_list r)) (map fvalue (to_list t)) /\ incl (to_list r) (to_list t) /\
      ((forall x y, In x (to_list t) -> In y (to_list t) -> two_zeros x y = false) -> Permutation (to_list r) (to_list t)).
Proof.
  intros b e n t F W N. assert (NN : forall x, In x (to_list t) -> nn x) by (intros x Hx; unfold nn; rewrite <- (nan_ok (float_fp e F)); now apply N).
  destruct (fsorted_all b e F n t W NN) as (r & R1 & R2 & R3). pose proof R3 as (I & S & P). exists r. split; [exact R1|]. split; [exact R2|]. split; [|split; [|split]].
  - apply (sorted_values (float_fp e F)); [|exact S]. intros x Hx. apply N. now apply I.
  - destruct (fvalue_of_key (float_fp e F)) as (g & G). rewrite (map_ext _ _ G), (map_ext _ (fun x => g (fkey x)) G (to_list t)). rewrite <- !(map_map fkey g). now apply Permutation_map.
  - exact I.
  - intros T. assert (Z : existsb (fun a => existsb (two_zeros a) (to_list t)) (to_list t) = false).
    { apply not_true_iff_false. intros E. apply existsb_exists in E. destruct E as (x & X1 & X2). apply existsb_exists in X2. destruct X2 as (y & Y1 & Y2). rewrite T in Y2 by assumption. discriminate Y2. }
    rewrite (fsorts_unique (float_fp e F) _ _ _ Z R3 (isort_sorts (float_fp e F) (to_list t))). apply isort_perm.
Qed.
