(** Floating-point programs in every build: simulation. *)
From Coq Require Import ZArith List Bool Lia.
From Verif.Spec Require Import Seq CastSpec FloatSpec MaskSpec VectorSpec NativeSpec PortableSpec PortableFpSpec.
From Verif.Model Require Import SplitSize Word Fp FpArith SseReg SseMove SortNet SseInt SseBuild SseArith SseMask SseNative SimdArray SimdArrayOps Mem
  AvxReg AvxMove AvxBuild AvxShuffle AvxMask AvxArith ScalarVec MaskedDiv Program Portable PortableFp.
From Verif.Proof Require Import WordP FpP SeqP SimdArrayP SimdArrayOpsP SimdArrayMain ScalarVecP SseIntP SseArithP SseFloatRedP SseVecMain AvxMaskP AvxArithP
  AvxVecMain MaskedDivMain SseBuildP AvxBuildP PortableP PortableOpsP PortableFpP PortableFpSortP PortableFpSumP PortableFpProdP PortableFpPsumP PortableFpMaskSumP PortableFpMaskProdP.
Import ListNotations.
Local Open Scope Z_scope.

Section FBuild.
  Context (b : build) (e : etype) (F : is_integer e = false).
  Let Hw : fp_width (esize e) := float_fp e F.
  Let W := b_native b e.
  Context (n : nat) (Hn : (1 <= n)%nat).
  Let R {A} : sa A -> list A -> Prop := @rel b e n A.
  Lemma f_arith_sim op t u l k z : R t l -> R u k -> o_arith (fp_reference e n) op l k = Some z -> exists r, o_arith (fp_implementation b e n) op t u = Some r /\ R r z.
  Proof using F.
    intros (A1 & <-) (B1 & <-) D. exact (op2o_sim W (Ww b e) (leaf_farith b e op) (f_arith op) (leaf_farith_ok b e F op) n t u z A1 B1 D).
  Qed.
  Lemma f_negate_sim t l z : R t l -> o_negate (fp_reference e n) l = Some z -> exists r, o_negate (fp_implementation b e n) t = Some r /\ R r z.
  Proof using F. intros (A1 & <-) D. cbn [fp_reference o_negate] in D. rewrite <- ad_some in D. exact (op1o_sim W (leaf_fnegate b e) _ (leaf_fnegate_ok b e F) n t z A1 D). Qed.
  Lemma f_unary_sim op t l z : R t l -> o_unary (fp_reference e n) op l = Some z -> exists r, o_unary (fp_implementation b e n) op t = Some r /\ R r z.
  Proof using F. intros (A1 & <-) D. exact (op1o_sim W (leaf_funary b e op) (f_unary op) (leaf_funary_ok b e F op) n t z A1 D). Qed.
  Lemma f_copysign_sim t u l k z : R t l -> R u k -> o_copysign (fp_reference e n) l k = Some z -> exists r, o_copysign (fp_implementation b e n) t u = Some r /\ R r z.
  Proof using F.
    intros (A1 & <-) (B1 & <-) D. cbn [fp_reference o_copysign] in D. rewrite <- ad_some2 in D. exact (op2o_sim W (Ww b e) (leaf_fcopysign b e) _ (leaf_fcopysign_ok b e F) n t u z A1 B1 D).
  Qed.
  Lemma f_test_sim op t l z : R t l -> o_test (fp_reference e n) op l = Some z -> exists r, o_test (fp_implementation b e n) op t = Some r /\ R r z.
  Proof using F. intros (A1 & <-) D. cbn [fp_reference o_test] in D. rewrite <- ad_some in D. exact (op1o_sim W (leaf_ftest b e op) _ (leaf_ftest_ok b e F op) n t z A1 D). Qed.
  Lemma f_shift_sim op t l k z : R t l -> o_shift (fp_reference e n) op l k = Some z -> exists r, o_shift (fp_implementation b e n) op t k = Some r /\ R r z.
  Proof using. intros _ D. discriminate D. Qed.
  Lemma f_compare_sim op t u l k z : R t l -> R u k -> o_compare (fp_reference e n) op l k = Some z -> exists r, o_compare (fp_implementation b e n) op t u = Some r /\ R r z.
  Proof using F.
    intros (A1 & <-) (B1 & <-) D. exact (op2o_sim W (Ww b e) (leaf_fcompare b e op) (f_compare op) (leaf_fcompare_ok b e F op) n t u z A1 B1 D).
  Qed.
  Lemma f_logic_sim op t u l k z : R t l -> R u k -> o_logic (fp_reference e n) op l k = Some z -> exists r, o_logic (fp_implementation b e n) op t u = Some r /\ R r z.
  Proof using. exact (logic_sim b e n op t u l k z). Qed.
  Lemma f_not_sim t l z : R t l -> o_not (fp_reference e n) l = Some z -> exists r, o_not (fp_implementation b e n) t = Some r /\ R r z.
  Proof using. exact (not_sim b e n t l z). Qed.
  Lemma f_assign_sim t u k l m q z : R t l -> R u m -> R k q -> o_assign (fp_reference e n) l m q = Some z -> exists r, o_assign (fp_implementation b e n) t u k = Some r /\ R r z.
  Proof using. exact (assign_sim b e n t u k l m q z). Qed.
  Lemma f_get_sim t l i v : R t l -> o_get (fp_reference e n) l i = Some v -> o_get (fp_implementation b e n) t i = Some v.
  Proof using. exact (get_sim b e n t l i v). Qed.
  Lemma f_set_sim t l i v z : R t l -> o_set (fp_reference e n) l i v = Some z -> exists r, o_set (fp_implementation b e n) t i v = Some r /\ R r z.
  Proof using. exact (set_sim b e n t l i v z). Qed.
  Lemma f_load_sim m m' p z : (forall a, m' a = m a) -> o_load (fp_reference e n) m p = Some z -> exists r, o_load (fp_implementation b e n) m' p = Some r /\ R r z.
  Proof using Hn. exact (load_sim b e n Hn m m' p z). Qed.
  Lemma f_store_sim t l m m' p q : R t l -> (forall a, m' a = m a) -> o_store (fp_reference e n) l m p = Some q -> exists q', o_store (fp_implementation b e n) t m' p = Some q' /\ forall a, q' a = q a.
  Proof using Hn. exact (store_sim b e n Hn t l m m' p q). Qed.
  Lemma f_query_sim t l : R t l -> o_full (fp_implementation b e n) t = o_full (fp_reference e n) l /\ o_not_empty (fp_implementation b e n) t = o_not_empty (fp_reference e n) l /\ o_count (fp_implementation b e n) t = o_count (fp_reference e n) l.
  Proof using. exact (query_sim b e n t l). Qed.
  Lemma f_mask_get_sim t l i v : R t l -> o_mask_get (fp_reference e n) l i = Some v -> o_mask_get (fp_implementation b e n) t i = Some v.
  Proof using. exact (mask_get_sim b e n t l i v). Qed.
  Lemma f_move_sim op t l z : R t l -> o_move (fp_reference e n) op l = Some z -> exists r, o_move (fp_implementation b e n) op t = Some r /\ R r z.
  Proof using F Hn.
    intros (A1 & <-) D. unfold R, rel. cbn [fp_reference o_move] in D. cbn [fp_implementation o_move]. destruct op as [k| | |k|]; cbn [implementation o_move b_move reference c_move] in *; [injection D as <-|injection D as <-| | |].
    - exact (C07_rotated_main _ W (b_moves b e) (w0 _) n t k (Ww b e) (moves_ok b e) A1).
    - exact (C08_reversed_main _ W (b_moves b e) (w0 _) n t (Ww b e) (moves_ok b e) A1).
    - unfold f_sort in D. destruct (existsb is_NaN (to_list t)) eqn:N; [discriminate D|]. destruct (existsb (fun a => existsb (two_zeros a) (to_list t)) (to_list t)) eqn:T; [discriminate D|]. injection D as <-.
      destruct (fsorted_all b e F n t A1) as (r & R1 & R2 & R3).
      { intros x Hx. unfold nn. rewrite <- (nan_ok Hw). destruct (is_NaN x) eqn:E; [|reflexivity]. rewrite <- N. symmetry. apply existsb_exists. exists x. auto. }
      exists r. split; [exact R1|]. split; [exact R2|]. exact (fsorts_unique Hw _ _ _ T R3 (isort_sorts Hw (to_list t))).
    - exact (shifted_sim b e n Hn t k z A1 D).
    - unfold f_partial_sum in D. destruct (sums_exact (to_list t)) eqn:S; [|discriminate D]. cbn [andb] in D.
      destruct (@existsb (word (esize e)) (fun x => sign_bit x && (fvalue x =? 0)) (to_list t)) eqn:N; [discriminate D|]. injection D as <-.
      destruct (exact_good Hw _ S N) as (k & K & KT & G). exact (psum_ok b e F k K KT n t A1 G).
  Qed.
  Lemma f_reduce_sim op t l v : R t l -> o_reduce (fp_reference e n) op l = Some v -> o_reduce (fp_implementation b e n) op t = Some v.
  Proof using F Hn.
    intros (A1 & <-) D. cbn [fp_reference o_reduce] in D. cbn [fp_implementation o_reduce].
    assert (M : forall o, existsb is_NaN (to_list t) || existsb (fun a => existsb (two_zeros a) (to_list t)) (to_list t) = o -> o = false -> (forall x, In x (to_list t) -> nn x) /\ existsb (fun a => existsb (two_zeros a) (to_list t)) (to_list t) = false).
    { intros o <- Z. apply orb_false_iff in Z as (N & T). split; [|exact T]. intros x Hx. unfold nn. rewrite <- (nan_ok Hw). destruct (is_NaN x) eqn:E; [|reflexivity]. rewrite <- N. symmetry. apply existsb_exists. exists x. auto. }
    destruct op; cbn [f_reduce] in D.
    - destruct (existsb is_NaN (to_list t) || existsb (fun a => existsb (two_zeros a) (to_list t)) (to_list t)) eqn:G; [discriminate D|]. destruct (M _ eq_refl eq_refl) as (NN & T).
      destruct (min_ok b e F n t A1 NN) as (u & -> & U). f_equal. apply (best_unique Hw up (to_list t)); auto. apply (spec_best up smaller); auto. apply (smaller_best Hw).
    - destruct (existsb is_NaN (to_list t) || existsb (fun a => existsb (two_zeros a) (to_list t)) (to_list t)) eqn:G; [discriminate D|]. destruct (M _ eq_refl eq_refl) as (NN & T).
      destruct (max_ok b e F n t A1 NN) as (u & -> & U). f_equal. apply (best_unique Hw down (to_list t)); auto. { unfold down. intros. lia. } apply (spec_best down larger); auto. apply (larger_best Hw).
    - clear M. destruct (sums_exact (to_list t)) eqn:S; [|discriminate D]. destruct (exact_fits Hw _ S) as (k & K & KT & H). exact (sum_ok b e F k K KT n t v A1 H D).
    - clear M. destruct (products_exact (to_list t)) eqn:S; [|discriminate D]. exact (product_ok b e F n t v A1 (products_pfits Hw _ S) D).
  Qed.
  Lemma f_reduce_mask_sim op t k l q v : R t l -> R k q -> o_reduce_mask (fp_reference e n) op l q = Some v -> o_reduce_mask (fp_implementation b e n) op t k = Some v.
  Proof using F Hn.
    intros (A1 & <-) (B1 & <-) D. cbn [fp_reference o_reduce_mask] in D. cbn [fp_implementation o_reduce_mask]. destruct op; try discriminate D.
    2:{ unfold f_product_mask in D. destruct (products_exact (select_spec (to_list k) (to_list t))) eqn:S; [|discriminate D]. injection D as <-.
      destruct (mask_product b e F (masks_ok b e) n t A1 k B1 (products_pfits Hw _ S)) as (r & R1 & R2). unfold b_freduce_mask. refine (eq_trans R1 _). f_equal.
      apply (pm_unique Hw _ _ _ R2). exact (fold_pm Hw _ (products_pfits Hw _ S)). }
    unfold f_sum_mask in D.
    destruct (sums_exact (select_spec (to_list k) (to_list t))) eqn:S; [|discriminate D]. cbn [andb] in D.
    destruct (@existsb (word (esize e)) (fun x => sign_bit x && (fvalue x =? 0)) (select_spec (to_list k) (to_list t))) eqn:N; [discriminate D|]. injection D as <-.
    destruct (exact_good Hw _ S N) as (j & J & JT & G). destruct (mask_sum b e F j J JT (masks_ok b e) n t A1 k B1 G) as (r & R1 & R2). unfold b_freduce_mask. refine (eq_trans R1 _). f_equal.
    apply (num_eq Hw j _ _ _ R2). exact (fold_num Hw j J JT _ G).
  Qed.
  Section Prog.
    Context {H : Type}.
    Let ST' := state (elt e) H (sa (elt e)) (sa bool).
    Let ST := state (elt e) H (list (elt e)) (list bool).
    Let rel_state := @rel_state b e n H.
    Lemma fstep_sim i (s' : ST') (s : ST) s1 : rel_state s' s -> step (fp_reference e n) i s = Some s1 -> exists s1', step (fp_implementation b e n) i s' = Some s1' /\ rel_state s1' s1.
    Proof using F Hn.
      intros RR D. pose proof RR as (RH & RM & RV & RK). destruct i; cbn [step] in *; rewrite ?RH.
      all: try match type of D with option_map _ ?x = Some _ => destruct x as [q|] eqn:E; [|discriminate D]; injection D as <- end.
      - eexists. split; [reflexivity|now apply set_h_rel].
      - injection D as <-. eexists. split; [reflexivity|]. apply set_v_rel; auto. apply (generate_sim b e n Hn).
      - destruct (f_arith_sim op _ _ _ _ q (RV x) (RV y) E) as (r & -> & Q). eexists. split; [reflexivity|now apply set_v_rel].
      - destruct (f_negate_sim _ _ q (RV x) E) as (r & -> & Q). eexists. split; [reflexivity|now apply set_v_rel].
      - destruct (f_unary_sim op _ _ q (RV x) E) as (r & -> & Q). eexists. split; [reflexivity|now apply set_v_rel].
      - destruct (f_copysign_sim _ _ _ _ q (RV x) (RV y) E) as (r & -> & Q). eexists. split; [reflexivity|now apply set_v_rel].
      - destruct (f_test_sim op _ _ q (RV x) E) as (r & -> & Q). eexists. split; [reflexivity|now apply set_m_rel].
      - destruct (f_shift_sim op _ _ _ q (RV x) E) as (r & -> & Q). eexists. split; [reflexivity|now apply set_v_rel].
      - destruct (f_compare_sim op _ _ _ _ q (RV x) (RV y) E) as (r & -> & Q). eexists. split; [reflexivity|now apply set_m_rel].
      - destruct (f_logic_sim op _ _ _ _ q (RK x) (RK y) E) as (r & -> & Q). eexists. split; [reflexivity|now apply set_m_rel].
      - destruct (f_not_sim _ _ q (RK x) E) as (r & -> & Q). eexists. split; [reflexivity|now apply set_m_rel].
      - destruct (f_assign_sim _ _ _ _ _ _ q (RV d) (RV y) (RK k) E) as (r & -> & Q). eexists. split; [reflexivity|now apply set_v_rel].
      - destruct (f_move_sim _ _ _ q (RV x) E) as (r & -> & Q). eexists. split; [reflexivity|now apply set_v_rel].
      - destruct (shift_in_sim b e n _ _ _ _ _ q (RV x) (RV y) E) as (r & G & Q). change (o_shift_in (fp_implementation b e n)) with (o_shift_in (implementation b e n)). rewrite G. eexists. split; [reflexivity|now apply set_v_rel].
      - destruct (interleave_sim b e n _ _ _ _ q (RV x) (RV y) E) as (r & G & Q1 & Q2). change (o_interleave (fp_implementation b e n)) with (o_interleave (implementation b e n)). rewrite G. eexists. split; [reflexivity|]. apply set_v_rel; [|exact Q2]. now apply set_v_rel.
      - rewrite (f_reduce_sim op _ _ q (RV x) E). eexists. split; [reflexivity|now apply set_h_rel].
      - rewrite (f_reduce_mask_sim op _ _ _ _ q (RV x) (RK k) E). eexists. split; [reflexivity|now apply set_h_rel].
      - rewrite (f_get_sim _ _ _ q (RV x) E). eexists. split; [reflexivity|now apply set_h_rel].
      - destruct (f_set_sim _ _ _ _ q (RV x) E) as (r & -> & Q). eexists. split; [reflexivity|now apply set_v_rel].
      - destruct (f_load_sim _ _ _ q RM E) as (r & -> & Q). eexists. split; [reflexivity|now apply set_v_rel].
      - destruct (f_store_sim _ _ _ _ _ q (RV x) RM E) as (r & -> & Q). eexists. split; [reflexivity|now apply set_mem_rel].
      - injection D as <-. destruct (f_query_sim _ _ (RK k)) as (-> & _). eexists. split; [reflexivity|now apply set_h_rel].
      - injection D as <-. destruct (f_query_sim _ _ (RK k)) as (_ & -> & _). eexists. split; [reflexivity|now apply set_h_rel].
      - injection D as <-. destruct (f_query_sim _ _ (RK k)) as (_ & _ & ->). eexists. split; [reflexivity|now apply set_h_rel].
      - rewrite (f_mask_get_sim _ _ _ q (RK k) E). eexists. split; [reflexivity|now apply set_h_rel].
      - destruct (gather_sim b e n _ _ _ _ _ _ (option_map (mr s') k) (option_map (mr s) k) q (RV d) RM ltac:(destruct k; [apply RK|exact Logic.I]) E) as (r & G & Q). change (o_gather (fp_implementation b e n)) with (o_gather (implementation b e n)). rewrite G. eexists. split; [reflexivity|now apply set_v_rel].
      - destruct (scatter_sim b e n _ _ _ _ _ _ (option_map (mr s') k) (option_map (mr s) k) q (RV x) RM ltac:(destruct k; [apply RK|exact Logic.I]) E) as (r & G & Q). change (o_scatter (fp_implementation b e n)) with (o_scatter (implementation b e n)). rewrite G. eexists. split; [reflexivity|now apply set_mem_rel].
    Qed.
    Lemma frun_sim : forall fuel p (s' : ST') (s s1 : ST), rel_state s' s -> run (fp_reference e n) fuel p s = Some s1 -> exists s1', run (fp_implementation b e n) fuel p s' = Some s1' /\ rel_state s1' s1.
    Proof using F Hn.
      induction fuel as [|fuel IH]; intros p s' s s1 RR D; [discriminate D|]. destruct p as [i|p q|c p q|c p]; cbn [run] in *.
      - eapply fstep_sim; eauto.
      - destruct (run (fp_reference e n) fuel p s) as [s2|] eqn:E; cbn [obind] in D; [|discriminate D]. destruct (IH _ _ _ _ RR E) as (s2' & -> & R2). cbn [obind]. eapply IH; eauto.
      - pose proof RR as (-> & _). destruct (c (hs s)); eapply IH; eauto.
      - pose proof RR as (-> & _). destruct (c (hs s)); [|injection D as <-; eauto].
        destruct (run (fp_reference e n) fuel p s) as [s2|] eqn:E; cbn [obind] in D; [|discriminate D]. destruct (IH _ _ _ _ RR E) as (s2' & -> & R2). cbn [obind]. eapply IH; eauto.
    Qed.
  End Prog.
End FBuild.
