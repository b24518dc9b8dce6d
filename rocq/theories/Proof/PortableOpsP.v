(** Programs in every build: each call. *)
From Coq Require Import ZArith List Bool Lia Permutation.
From Verif.Spec Require Import Seq CastSpec MaskSpec VectorSpec NativeSpec PortableSpec.
From Verif.Spec Require GatherSpec.
From Verif.Proof Require PortableMemP.
From Verif.Model Require Import SplitSize Word SseReg SseMove SortNet SseInt SseBuild SseArith SseMask SseNative SimdArray SimdArrayOps Mem
  AvxReg AvxMove AvxBuild AvxShuffle AvxMask AvxArith ScalarVec MaskedDiv Program Portable.
From Verif.Proof Require SseMaskP SplitSizeP.
From Verif.Proof Require Import MaskedEmptyP WordP SeqP DivP SimdArrayP SimdArrayOpsP SimdArrayMain ScalarVecP SseIntP SseArithP SseBuildP SseNativeP SseBuildMain SseVecMain AvxMaskP AvxArithP AvxBuildP AvxNativeP AvxBuildMain
  AvxVecMain MaskedDivP MaskedDivMain PortableP.
Import ListNotations.
Local Open Scope Z_scope.

Lemma insert_perm e a : forall xs, Permutation (c_insert e a xs) (a :: xs).
Proof. induction xs as [|b xs IH]; cbn; [auto|]. destruct (_ <=? _); [auto|]. rewrite IH. constructor. Qed.
Lemma sort_perm e : forall xs, Permutation (c_sort e xs) xs.
Proof. induction xs as [|a xs IH]; cbn; [auto|]. rewrite insert_perm. now constructor. Qed.
Lemma insert_sorted e a : is_integer e = true -> forall xs, sorted_spec (e_le e) xs -> sorted_spec (e_le e) (c_insert e a xs).
Proof.
  intros I. induction xs as [|b xs IH]; cbn; intros S; [split; [intros y []|auto]|]. destruct S as (S1 & S2). destruct (Z.leb_spec (e_val e a) (e_val e b)).
  - split; [|cbn; auto]. intros y [<-|Hy]; rewrite e_le_val by auto; apply Z.leb_le; [lia|]. specialize (S1 y Hy). rewrite e_le_val in S1 by auto. apply Z.leb_le in S1. lia.
  - split; [|now apply IH]. intros y Hy. apply (Permutation_in _ (insert_perm e a xs)) in Hy. destruct Hy as [<-|Hy]; [|now apply S1]. rewrite e_le_val by auto. apply Z.leb_le. lia.
Qed.
Lemma sort_sorted e : is_integer e = true -> forall xs, sorted_spec (e_le e) (c_sort e xs).
Proof. intros I. induction xs as [|a xs IH]; cbn; [exact Logic.I|]. now apply insert_sorted. Qed.

Section Red.
  Context (e : etype) (I : is_integer e = true).
  Lemma val_min a b : e_val e (e_min e a b) = Z.min (e_val e a) (e_val e b).
  Proof using I. rewrite e_min_val, e_val_min by auto. destruct (Z.leb_spec (e_val e a) (e_val e b)); lia. Qed.
  Lemma val_max a b : e_val e (e_max e a b) = Z.max (e_val e a) (e_val e b).
  Proof using I. rewrite e_max_val, e_val_max by auto. destruct (Z.leb_spec (e_val e a) (e_val e b)); lia. Qed.
  Lemma fold_val (f : elt e -> elt e -> elt e) (g : Z -> Z -> Z) : (forall a b, e_val e (f a b) = g (e_val e a) (e_val e b)) ->
    forall xs v, reduce_spec f xs = Some v -> option_map (e_of e) (reduce_spec g (map (e_val e) xs)) = Some v.
  Proof using.
    intros H. assert (F : forall xs a, fold_left g (map (e_val e) xs) (e_val e a) = e_val e (fold_left f xs a)).
    { induction xs as [|x xs IH]; intros a; cbn [map fold_left]; [reflexivity|]. now rewrite <- H, IH. }
    intros [|x xs] v; cbn [reduce_spec map]; [discriminate|]. intros [= <-]. cbn [option_map]. now rewrite F, e_of_val.
  Qed.
End Red.

Section Build.
  Context (b : build) (e : etype) (n : nat) (I : is_integer e = true) (Hn : (1 <= n)%nat).
  Let W := b_native b e.
  Definition rel {A} (t : sa A) (l : list A) : Prop := wf (b_native b e) n t /\ to_list t = l.
  Lemma Ww : widths_ok W.
  Proof using. unfold W, b_native. destruct (b_impl b); cbn [div_native]; [apply scalar_widths|apply build_widths|apply abuild_widths]. Qed.
  Lemma rel_len {A} (t : sa A) l : rel t l -> length l = n.
  Proof using. intros (H & <-). now apply (wf_len W Ww). Qed.

  Lemma generate_sim {A} (f : Z -> A) : rel (generate W n f) (tab n f).
  Proof using Hn. exact (C04_generate_main _ W n f Ww Hn). Qed.
  Lemma arith_sim op t u l k z : rel t l -> rel u k -> o_arith (reference e n) op l k = Some z -> exists r, o_arith (implementation b e n) op t u = Some r /\ rel r z.
  Proof using I.
    intros (A1 & <-) (B1 & <-) D. exact (op2o_sim W Ww (leaf_arith b e op) (c_arith e op) (fun xs ys zs => leaf_arith_ok b e I op xs ys zs) n t u z A1 B1 D).
  Qed.
  Lemma negate_sim t l z : rel t l -> o_negate (reference e n) l = Some z -> exists r, o_negate (implementation b e n) t = Some r /\ rel r z.
  Proof using I. intros (A1 & <-) D. exact (op1o_sim W (leaf_negate b e) (c_negate e) (leaf_negate_ok b e I) n t z A1 D). Qed.
  Lemma unary_sim op t l z : rel t l -> o_unary (reference e n) op l = Some z -> exists r, o_unary (implementation b e n) op t = Some r /\ rel r z.
  Proof using I. intros (A1 & <-) D. exact (op1o_sim W (leaf_unary b e op) (c_unary e op) (leaf_unary_ok b e I op) n t z A1 D). Qed.
  Lemma shift_sim op t l k z : rel t l -> o_shift (reference e n) op l k = Some z -> exists r, o_shift (implementation b e n) op t k = Some r /\ rel r z.
  Proof using I. intros (A1 & <-) D. exact (op1o_sim W (leaf_shift b e op k) (c_shift e op k) (leaf_shift_ok b e I op k) n t z A1 D). Qed.
  Lemma compare_sim op t u l k z : rel t l -> rel u k -> o_compare (reference e n) op l k = Some z -> exists r, o_compare (implementation b e n) op t u = Some r /\ rel r z.
  Proof using I.
    intros (A1 & <-) (B1 & <-) D. cbn [reference o_compare] in D. rewrite <- ad_some2 in D. exact (op2o_sim W Ww (leaf_compare b e op) _ (leaf_compare_ok b e I op) n t u z A1 B1 D).
  Qed.
  Lemma logic_sim op t u l k z : rel t l -> rel u k -> o_logic (reference e n) op l k = Some z -> exists r, o_logic (implementation b e n) op t u = Some r /\ rel r z.
  Proof using.
    intros (A1 & <-) (B1 & <-) D. cbn [reference o_logic] in D. rewrite <- ad_some2 in D. exact (op2o_sim W Ww (leaf_logic b e op) _ (leaf_logic_ok b e op) n t u z A1 B1 D).
  Qed.
  Lemma not_sim t l z : rel t l -> o_not (reference e n) l = Some z -> exists r, o_not (implementation b e n) t = Some r /\ rel r z.
  Proof using. intros (A1 & <-) D. cbn [reference o_not] in D. rewrite <- ad_some in D. exact (op1o_sim W (leaf_not b e) _ (leaf_not_ok b e) n t z A1 D). Qed.
  Lemma assign_sim t u k l m q z : rel t l -> rel u m -> rel k q -> o_assign (reference e n) l m q = Some z -> exists r, o_assign (implementation b e n) t u k = Some r /\ rel r z.
  Proof using.
    intros (A1 & <-) (B1 & <-) (C1 & <-) [= <-]. exact (C15_masked_assign_main _ W (div_assign (b_impl b) e) n t u k Ww (div_assign_native (b_impl b) e) A1 B1 C1).
  Qed.
  Lemma moves_ok : native_moves_ok W (w0 (esize e)) (b_moves b e) .
  Proof using.
    unfold b_moves, W, b_native. destruct (b_impl b) as [|s|avx2 g]; cbn [div_native]; [apply scalar_moves|apply build_moves|apply abuild_moves].
  Qed.
  Lemma sorted_leaf : native_sorted_ok W (e_le e) (b_moves b e).
  Proof using I.
    unfold b_moves, W, b_native. destruct (b_impl b) as [|s|avx2 g]; cbn [div_native]; [apply scalar_sorted|now apply build_sorted|now apply abuild_sorted].
  Qed.
  Lemma psum_leaf : native_partial_sum_ok W wadd (b_moves b e).
  Proof using.
    unfold b_moves, W, b_native. destruct (b_impl b) as [|s|avx2 g]; cbn [div_native]; [apply scalar_partial_sum|apply build_partial_sum|apply abuild_partial_sum].
  Qed.
  Lemma psum_val : forall (xs : list (elt e)) a, scan_spec wadd (e_of e a) xs = map (e_of e) (z_partial_sums a (map (e_val e) xs)).
  Proof using.
    clear. induction xs as [|x xs IH]; intros a; cbn [scan_spec z_partial_sums map]; [reflexivity|].
    assert (E : wadd (e_of e a) x = e_of e (a + e_val e x)). { rewrite <- (mkw_val e x) at 1. apply of_add. }
    unfold elt in E, IH |- *. rewrite E. f_equal. apply IH.
  Qed.
  Lemma left_log : (2 <= n)%nat -> left_size n = (2 ^ Nat.log2 (n - 1))%nat.
  Proof using.
    clear Hn. intros H. destruct (SplitSizeP.left_size_spec n H) as (k & E1 & E2 & E3). rewrite E1 in *. f_equal. symmetry. apply Nat.log2_unique; cbn; lia.
  Qed.
  Lemma shifted_sim (t : sa (elt e)) k z : wf W n t -> (if shift_defined n k then Some (shift_spec (w0 _) (to_list t) k) else None) = Some z ->
    exists r, shifted W (b_moves b e) (w0 _) t k = Some r /\ rel r z.
  Proof using Hn.
    intros A1 D. destruct (shift_defined n k) eqn:S; [|discriminate D]. injection D as <-. unfold shift_defined in S. rewrite !orb_true_iff, Nat.eqb_eq, Z.eqb_eq, Z.leb_le in S.
    destruct (Nat.eq_dec n (2 ^ Nat.log2 n)) as [P|P].
    - unfold rel. rewrite P in A1 |- *. exact (C05_shifted_power_of_two_main _ W (b_moves b e) (w0 _) _ t k Ww moves_ok A1).
    - refine (C05_shifted_partial_main _ W (b_moves b e) (w0 _) n t k Ww moves_ok A1 _). right. destruct S as [[S|S]|S]; [contradiction|now left|right].
      assert (n <> 1)%nat by (intros E; apply P; rewrite E; reflexivity). rewrite left_log by lia. exact S.
  Qed.
  Lemma shift_in_sim t s l q k z : rel t l -> rel s q -> o_shift_in (reference e n) l k q = Some z -> exists r, o_shift_in (implementation b e n) t k s = Some r /\ rel r z.
  Proof using.
    intros (A1 & <-) (B1 & <-) D. cbn [reference o_shift_in] in D. destruct ((- Z.of_nat n <=? k) && (k <=? Z.of_nat n)) eqn:K; [|discriminate D]. injection D as <-. apply andb_true_iff in K. rewrite !Z.leb_le in K.
    exact (C06_shifted_in_main _ W (b_moves b e) (w0 _) n t s k Ww moves_ok A1 B1 K).
  Qed.
  Lemma interleave_sim t s l q z : rel t l -> rel s q -> o_interleave (reference e n) l q = Some z -> exists r, o_interleave (implementation b e n) t s = Some r /\ rel (fst r) (fst z) /\ rel (snd r) (snd z).
  Proof using.
    intros (A1 & <-) (B1 & <-) D. cbn [reference o_interleave] in D. injection D as <-. destruct (C09_interleave_main _ W (b_moves b e) (w0 _) n t s Ww moves_ok A1 B1) as (lo & hi & R1 & R2 & R3 & R4 & R5).
    exists (lo, hi). cbn [implementation o_interleave]. unfold b_interleave. fold W. rewrite R1, R2. cbn [obind fst snd]. split; [reflexivity|]. rewrite <- R5.
    pose proof (wf_len W Ww n lo R3) as L. split; split; auto; symmetry.
    - rewrite <- L. rewrite firstn_app, Nat.sub_diag, firstn_all. cbn [firstn]. apply app_nil_r.
    - rewrite <- L. rewrite skipn_app, Nat.sub_diag, skipn_all. reflexivity.
  Qed.
  Lemma move_sim op t l z : rel t l -> o_move (reference e n) op l = Some z -> exists r, o_move (implementation b e n) op t = Some r /\ rel r z.
  Proof using I Hn.
    intros (A1 & <-) D. cbn [reference o_move] in D. cbn [implementation o_move]. unfold b_move. destruct op as [k| | |k|]; cbn [c_move] in D; [injection D as <-|injection D as <-|injection D as <-| |].
    - exact (C07_rotated_main _ W (b_moves b e) (w0 _) n t k Ww moves_ok A1).
    - exact (C08_reversed_main _ W (b_moves b e) (w0 _) n t Ww moves_ok A1).
    - destruct (C10_sorted_main _ W (b_moves b e) (w0 _) (e_le e) (e_min e) (e_max e) (e_top e) n t Ww moves_ok sorted_leaf (e_le_total e I) (e_top_spec e I)) as (r & R1 & R2 & R3 & R4); auto.
      + intros x y. now destruct e.
      + intros x y. now destruct e.
      + exists r. split; [exact R1|]. split; [exact R2|]. apply (sorted_perm_unique _ (e_le e)); [| |exact R3|now apply sort_sorted|].
        * intros x. rewrite e_le_val by auto. apply Z.leb_refl.
        * exact (to_antisym _ (e_le_total e I)).
        * apply (Permutation_trans R4). symmetry. apply sort_perm.
    - exact (shifted_sim t k z A1 D).
    - destruct (c_reduce e RSum (to_list t)); [|discriminate D]. injection D as <-.
      destruct (C12_partial_sum_main _ W (b_moves b e) (w0 _) wadd n t Ww psum_leaf wadd_comm A1) as (r & R1 & R2 & R3). exists r. split; [exact R1|]. split; [exact R2|].
      refine (eq_trans R3 _). destruct (to_list t) as [|x xs]; [reflexivity|]. cbn [partial_sum_spec z_partial_sums map]. rewrite <- psum_val, Z.add_0_l, (mkw_val e x). reflexivity.
  Qed.
  Lemma red_ok : exists rm rx rs rp, b_reduce b e RMin = reduce rm (e_min e) /\ b_reduce b e RMax = reduce rx (e_max e) /\ b_reduce b e RSum = reduce rs wadd /\ b_reduce b e RProduct = reduce rp wmul /\
    native_reduce_ok W (e_min e) rm /\ native_reduce_ok W (e_max e) rx /\ native_reduce_ok W wadd rs /\ native_reduce_ok W wmul rp.
  Proof using I.
    unfold b_reduce, W, b_native. destruct (b_impl b) as [|s|avx2 g]; cbn [div_native].
    - do 4 eexists. do 4 (split; [reflexivity|]). repeat split; apply scalar_reduce_ok.
    - do 4 eexists. do 4 (split; [reflexivity|]). split; [now apply sse_min_ok|]. split; [now apply sse_max_ok|]. split; [now apply sse_sum_ok|now apply sse_product_ok].
    - do 4 eexists. do 4 (split; [reflexivity|]). split; [now apply avx_min_ok|]. split; [now apply avx_max_ok|]. split; [now apply avx_sum_ok|now apply avx_product_ok].
  Qed.
  Lemma reduce_sim op t l v : rel t l -> o_reduce (reference e n) op l = Some v -> o_reduce (implementation b e n) op t = Some v.
  Proof using I.
    intros (A1 & <-) D. cbn [reference o_reduce] in D. cbn [implementation o_reduce]. destruct red_ok as (rm & rx & rs & rp & E1 & E2 & E3 & E4 & Om & Ox & Os & Op).
    destruct op; cbn [c_reduce] in D.
    - rewrite E1. destruct (C13_reduce_main _ W (e_min e) rm n t Ww Om (e_min_assoc e I) (e_min_comm e I) A1) as (u & -> & U). apply (fold_val e _ Z.min (val_min e I)) in U. congruence.
    - rewrite E2. destruct (C13_reduce_main _ W (e_max e) rx n t Ww Ox (e_max_assoc e I) (e_max_comm e I) A1) as (u & -> & U). apply (fold_val e _ Z.max (val_max e I)) in U. congruence.
    - rewrite E3. destruct (c_result _ _); [|discriminate D]. destruct (C13_reduce_main _ W wadd rs n t Ww Os wadd_assoc wadd_comm A1) as (u & -> & U). apply red_sum in U. rewrite U. exact D.
    - rewrite E4. destruct (c_result _ _); [|discriminate D]. destruct (C13_reduce_main _ W wmul rp n t Ww Op wmul_assoc wmul_comm A1) as (u & -> & U). apply red_prod in U. rewrite U. exact D.
  Qed.
  Lemma bounds {A} (t : sa A) l i : rel t l -> (0 <=? i) && (i <? isize t) = in_bounds n i.
  Proof using. intros (A1 & _). unfold in_bounds. now rewrite (wf_isz W Ww n t A1). Qed.
  Lemma in_bounds_iff k i : in_bounds k i = true <-> 0 <= i < Z.of_nat k.
  Proof using. unfold in_bounds. rewrite andb_true_iff, Z.leb_le, Z.ltb_lt. reflexivity. Qed.
  Lemma get_sim t l i v : rel t l -> o_get (reference e n) l i = Some v -> o_get (implementation b e n) t i = Some v.
  Proof using. intros R D. cbn [reference o_get] in D. cbn [implementation o_get]. unfold get. pose proof (bounds t l i R) as B. destruct R as (A1 & <-). unfold elt in *. rewrite B. exact D. Qed.
  Lemma set_sim t l i v z : rel t l -> o_set (reference e n) l i v = Some z -> exists r, o_set (implementation b e n) t i v = Some r /\ rel r z.
  Proof using.
    intros R D. cbn [reference o_set] in D. cbn [implementation o_set]. pose proof (bounds t l i R) as BB. unfold elt in *. rewrite BB. destruct (in_bounds n i) eqn:B; [|discriminate D]. injection D as <-. apply in_bounds_iff in B.
    destruct R as (A1 & <-). destruct (C03_subscript_write_main _ W n t i v (w0 _) Ww A1 B) as (S1 & S2). eexists. split; [reflexivity|]. split; [exact S1|]. apply (list_ext_tab _ (w0 _)); [now apply (wf_len W Ww)|]. auto.
  Qed.
  Lemma ad_tab {A} (f : Z -> option A) d k z : all_defined (tab k f) = Some z -> forall i, 0 <= i < Z.of_nat k -> f i = Some (znth d z i).
  Proof using.
    clear W Hn I. clear n. intros D i Hi. assert (G : forall xs (zs : list A), all_defined xs = Some zs -> forall j, (j < length xs)%nat -> nth j xs None = Some (nth j zs d)).
    { induction xs as [|x xs IH]; intros zs E j Hj; cbn in *; [lia|]. destruct x as [a|]; [|discriminate E]. destruct (all_defined xs) as [q|]; [|discriminate E]. injection E as <-. destruct j; [reflexivity|]. exact (IH q eq_refl j ltac:(lia)). }
    pose proof (ad_length _ _ D) as L. rewrite tab_length in L. specialize (G _ _ D (Z.to_nat i)). rewrite tab_length in G. specialize (G ltac:(lia)).
    rewrite (SeqP.znth_in _ d z i) by lia. rewrite <- G, <- (SeqP.znth_in _ None (tab k f) i) by (rewrite tab_length; lia). symmetry. now apply SeqP.znth_tab.
  Qed.
  Lemma load_sim m m' p z : (forall a, m' a = m a) -> o_load (reference e n) m p = Some z -> exists r, o_load (implementation b e n) m' p = Some r /\ rel r z.
  Proof using Hn.
    intros M D. cbn [reference o_load] in D. pose proof (ad_tab _ (w0 _) _ _ D) as G.
    destruct (C03_load_main _ W n m' p (fun i => znth (w0 _) z i) Ww Hn) as (t & T1 & T2 & T3). { intros i Hi. rewrite M. now apply G. }
    exists t. split; [exact T1|]. split; [exact T2|]. rewrite T3. symmetry. apply (list_ext_tab _ (w0 _)); auto. apply ad_length in D. now rewrite tab_length in D.
  Qed.
  Lemma store_sim t l m m' p q : rel t l -> (forall a, m' a = m a) -> o_store (reference e n) l m p = Some q -> exists q', o_store (implementation b e n) t m' p = Some q' /\ forall a, q' a = q a.
  Proof using Hn.
    intros (A1 & <-) M D. cbn [reference o_store] in D. destruct (all_defined (tab n (fun i => m (p + i)))) as [old|] eqn:E; [|discriminate D]. injection D as <-. pose proof (ad_tab _ (w0 _) _ _ E) as G.
    destruct (C03_store_main _ W n t m' p (w0 _) Ww A1) as (q' & Q1 & Q2 & Q3). { intros i Hi. rewrite M. eexists. now apply G. }
    exists q'. split; [exact Q1|]. intros a. destruct (in_bounds n (a - p)) eqn:B.
    - apply in_bounds_iff in B. specialize (Q2 _ B). replace (p + (a - p)) with a in Q2 by lia. exact Q2.
    - rewrite Q3, M; [reflexivity|]. assert (~ 0 <= a - p < Z.of_nat n) by (rewrite <- in_bounds_iff, B; discriminate). lia.
  Qed.
  Lemma masks_ok : native_masks_ok W (b_masks b e).
  Proof using.
    unfold b_masks, W, b_native. destruct (b_impl b) as [|s|avx2 g]; cbn [div_native]; [apply scalar_masks|apply SseMaskP.sse_masks, esize_ok|apply avx_masks].
  Qed.
  Lemma masked_ok : exists rm rx rs rp, let red := @reduce_masked (b_masks b e) (elt e) in
    (forall t k, b_reduce_mask b e RMin t k = red rm (e_min e) t k) /\ (forall t k, b_reduce_mask b e RMax t k = red rx (e_max e) t k) /\
    (forall t k, b_reduce_mask b e RSum t k = red rs wadd t k) /\ (forall t k, b_reduce_mask b e RProduct t k = red rp wmul t k) /\
    native_reduce_masked_ok W (e_min e) rm /\ native_reduce_masked_ok W (e_max e) rx /\ native_reduce_masked_ok W wadd rs /\ native_reduce_masked_ok W wmul rp /\ mred_empty W (w0 _) rs /\ mred_empty W (mkw _ 1) rp.
  Proof using I.
    unfold b_reduce_mask, W, b_native. destruct (b_impl b) as [|s|avx2 g]; cbn [div_native].
    - do 4 eexists. do 4 (split; [intros; reflexivity|]). split; [apply scalar_minmax_masked_ok|]. split; [apply scalar_minmax_masked_ok|]. split; [apply scalar_sumprod_masked_ok|]. split; [apply scalar_sumprod_masked_ok|]. split; apply scalar_empty.
    - do 4 eexists. do 4 (split; [intros; reflexivity|]). split; [now apply sse_min_masked_ok|]. split; [now apply sse_max_masked_ok|]. split; [now apply sse_sum_masked_ok|]. split; [now apply sse_product_masked_ok|]. split; [now apply sse_sum_empty|now apply sse_product_empty].
    - do 4 eexists. do 4 (split; [intros; reflexivity|]). split; [now apply avx_min_masked_ok|]. split; [now apply avx_max_masked_ok|]. split; [now apply (avx_sum_masked_ok avx2)|]. split; [now apply (avx_product_masked_ok avx2)|]. split; [now apply avx_sum_empty|now apply avx_product_empty].
  Qed.
  Lemma reduce_mask_sim op t k l q v : rel t l -> rel k q -> o_reduce_mask (reference e n) op l q = Some v -> o_reduce_mask (implementation b e n) op t k = Some v.
  Proof using I Hn.
    intros (A1 & <-) (B1 & <-) D. cbn [reference o_reduce_mask] in D. cbn [implementation o_reduce_mask]. 
    destruct masked_ok as (rm & rx & rs & rp & E1 & E2 & E3 & E4 & Om & Ox & Os & Op & Es & Ep). cbv zeta in E1, E2, E3, E4. destruct (existsb (fun b => b) (to_list k)) eqn:EX.
    2:{ assert (N : none_spec (to_list k)). { intros c Hc. destruct c; [|reflexivity]. rewrite <- EX. symmetry. apply existsb_exists. exists true. auto. }
        rewrite (select_none _ _ N) in D. destruct op; cbn [c_reduce map] in D; try discriminate D; [rewrite E3; refine (eq_trans (reduce_empty W (b_masks b e) masks_ok rs wadd (w0 _) Es n t k A1 B1 N) _)|rewrite E4; refine (eq_trans (reduce_empty W (b_masks b e) masks_ok rp wmul (mkw _ 1) Ep n t k A1 B1 N) _)];
          (destruct (c_result _ _); [|discriminate D]); exact D. }
    assert (X : exists i, znth false (to_list k) i = true).
    { apply existsb_exists in EX. destruct EX as (c & IN & ->). destruct (In_nth _ _ false IN) as (j & J1 & J2). exists (Z.of_nat j). rewrite SeqP.znth_in by lia. now rewrite Nat2Z.id. }
    destruct op; cbn [c_reduce] in D.
    - rewrite E1. destruct (C14_reduce_masked_main _ W (b_masks b e) (e_min e) rm n t k Ww masks_ok Om (e_min_assoc e I) A1 B1 X) as (u & -> & U). apply (fold_val e _ Z.min (val_min e I)) in U. congruence.
    - rewrite E2. destruct (C14_reduce_masked_main _ W (b_masks b e) (e_max e) rx n t k Ww masks_ok Ox (e_max_assoc e I) A1 B1 X) as (u & -> & U). apply (fold_val e _ Z.max (val_max e I)) in U. congruence.
    - rewrite E3. destruct (c_result _ _); [|discriminate D]. destruct (C14_reduce_masked_main _ W (b_masks b e) wadd rs n t k Ww masks_ok Os (wadd_assoc) A1 B1 X) as (u & U0 & U). refine (eq_trans U0 _). apply red_sum in U. rewrite U. exact D.
    - rewrite E4. destruct (c_result _ _); [|discriminate D]. destruct (C14_reduce_masked_main _ W (b_masks b e) wmul rp n t k Ww masks_ok Op (wmul_assoc) A1 B1 X) as (u & U0 & U). refine (eq_trans U0 _). apply red_prod in U. rewrite U. exact D.
  Qed.
  Definition rel_opt (k : option (sa bool)) (q : option (list bool)) : Prop := match k, q with Some ks, Some qs => rel ks qs | None, None => True | _, _ => False end.
  Lemma rel_opt_list k q : rel_opt k q -> option_map to_list k = q /\ match k with Some ks => wf W n ks | None => True end.
  Proof using. destruct k as [ks|], q as [qs|]; cbn; intros H; try contradiction; [destruct H as (H & <-)|]; auto. Qed.
  Lemma gather_mapped (l : list (elt e)) (m m' : memory (elt e)) p ix k z : (forall a, m' a = m a) -> all_defined (tab n (fun i => if selected k i then m (p + ix i) else Some (znth (w0 _) l i))) = Some z ->
    GatherSpec.mapped m' p ix n (selected k).
  Proof using. intros M D i Hi S. pose proof (ad_tab _ (w0 _) _ _ D i Hi) as G. cbv beta in G. rewrite S in G. rewrite M, G. discriminate. Qed.
  Lemma gather_sim t l m m' p ix k q z : rel t l -> (forall a, m' a = m a) -> rel_opt k q -> o_gather (reference e n) l m p ix q = Some z ->
    exists r, o_gather (implementation b e n) t m' p ix k = Some r /\ rel r z.
  Proof using.
    intros RT M RK D. pose proof (rel_len _ _ RT) as L. destruct RT as (A1 & <-). destruct (rel_opt_list _ _ RK) as (<- & B1). cbn [reference o_gather] in D. cbn [implementation o_gather].
    destruct (PortableMemP.b_gather_ok b e n t m' p ix k A1 B1 (gather_mapped _ _ _ _ _ _ _ M D)) as (r & R1 & R2 & R3 & R4).
    exists r. split; [exact R1|]. split; [exact R2|].
    assert (Lz : length z = n) by (apply ad_length in D; now rewrite tab_length in D). pose proof (wf_len W Ww n r R2) as Lr.
    apply eq_trans with (tab n (fun i => znth (w0 (esize e)) z i)).
    2: { symmetry. apply (list_ext_tab _ (w0 _)); auto. }
    apply (list_ext_tab _ (w0 (esize e))); [exact Lr|].
    { intros i Hi. pose proof (ad_tab _ (w0 _) _ _ D i Hi) as G. cbv beta in G. unfold elt in L, G |- *. assert (Hi' : 0 <= i < Z.of_nat (length (to_list t))) by (unfold elt; rewrite L; exact Hi). specialize (R4 i Hi').
      destruct (selected (option_map to_list k) i).
      + rewrite M in R4. unfold elt in R4. rewrite R4 in G. now injection G.
      + injection G as <-. exact R4. }
  Qed.
  Lemma scatter_sim t l m m' p ix k q z : rel t l -> (forall a, m' a = m a) -> rel_opt k q -> o_scatter (reference e n) l m p ix q = Some z ->
    exists z', o_scatter (implementation b e n) t m' p ix k = Some z' /\ forall a, z' a = z a.
  Proof using.
    intros RT M RK D. pose proof (rel_len _ _ RT) as L. destruct RT as (A1 & <-). destruct (rel_opt_list _ _ RK) as (<- & B1). cbn [reference o_scatter] in D. cbn [implementation o_scatter].
    match type of D with match ?x with _ => _ end = _ => destruct x as [y|] eqn:E; [|discriminate D] end. injection D as <-.
    destruct (PortableMemP.b_scatter_ok b e n t m' p ix k A1 B1 (gather_mapped _ _ _ _ _ _ _ M E)) as (r & R1 & R2).
    exists r. split; [exact R1|]. pose proof (PortableMemP.write_entries_at (w0 (esize e)) (to_list t) p ix (selected (option_map to_list k)) m) as Q.
    unfold elt in L, Q |- *. rewrite L in Q. exact (PortableMemP.scattered_unique _ _ _ _ _ _ _ _ _ M R2 Q).
  Qed.
  Lemma bool_eq (x y : bool) : (x = true <-> y = true) -> x = y.
  Proof using. clear. destruct x, y; intros [A B]; auto. symmetry; auto. Qed.
  Lemma query_sim t l : rel t l -> o_full (implementation b e n) t = o_full (reference e n) l /\ o_not_empty (implementation b e n) t = o_not_empty (reference e n) l /\ o_count (implementation b e n) t = o_count (reference e n) l.
  Proof using.
    intros (A1 & <-). destruct (C16_mask_queries_main W (b_masks b e) n t Ww masks_ok A1) as (Q1 & _ & Q3 & _ & Q5 & _). cbn [implementation reference o_full o_not_empty o_count]. split; [|split; [|exact Q5]]; apply bool_eq.
    - rewrite Q1, forallb_forall. reflexivity.
    - rewrite Q3, existsb_exists. reflexivity.
  Qed.
  Lemma mask_get_sim t l i v : rel t l -> o_mask_get (reference e n) l i = Some v -> o_mask_get (implementation b e n) t i = Some v.
  Proof using.
    intros (A1 & <-) D. cbn [reference o_mask_get] in D. cbn [implementation o_mask_get]. destruct (in_bounds n i) eqn:B; [|discriminate D]. injection D as <-. apply in_bounds_iff in B. now apply (mask_get_ok W Ww n).
  Qed.

  (** * Programs *)
  Definition rel_state {H} (s' : state (elt e) H (sa (elt e)) (sa bool)) (s : state (elt e) H (list (elt e)) (list bool)) : Prop :=
    hs s' = hs s /\ (forall a, mm s' a = mm s a) /\ (forall i, rel (vr s' i) (vr s i)) /\ (forall i, rel (mr s' i) (mr s i)).
  Lemma upd_rel {A} (r' : nat -> sa A) r d v' v : (forall i, rel (r' i) (r i)) -> rel v' v -> forall i, rel (upd r' d v' i) (upd r d v i).
  Proof using. intros H R i. unfold upd. destruct (i =? d)%nat; auto. Qed.
  Section Prog.
    Context {H : Type}.
    Let ST' := state (elt e) H (sa (elt e)) (sa bool).
    Let ST := state (elt e) H (list (elt e)) (list bool).
    Lemma set_v_rel (s' : ST') (s : ST) d v' v : rel_state s' s -> rel v' v -> rel_state (set_v s' d v') (set_v s d v).
    Proof using. intros (R1 & R2 & R3 & R4) R. refine (conj _ (conj _ (conj _ _))); cbn [set_v set_m set_h set_mem hs mm vr mr]; auto using @upd_rel. Qed.
    Lemma set_m_rel (s' : ST') (s : ST) d v' v : rel_state s' s -> rel v' v -> rel_state (set_m s' d v') (set_m s d v).
    Proof using. intros (R1 & R2 & R3 & R4) R. refine (conj _ (conj _ (conj _ _))); cbn [set_v set_m set_h set_mem hs mm vr mr]; auto using @upd_rel. Qed.
    Lemma set_h_rel (s' : ST') (s : ST) h : rel_state s' s -> rel_state (set_h s' h) (set_h s h).
    Proof using. intros (R1 & R2 & R3 & R4). refine (conj _ (conj _ (conj _ _))); cbn [set_v set_m set_h set_mem hs mm vr mr]; auto using @upd_rel. Qed.
    Lemma set_mem_rel (s' : ST') (s : ST) m' m : rel_state s' s -> (forall a, m' a = m a) -> rel_state (set_mem s' m') (set_mem s m).
    Proof using. intros (R1 & R2 & R3 & R4) M. refine (conj _ (conj _ (conj _ _))); cbn [set_v set_m set_h set_mem hs mm vr mr]; auto using @upd_rel. Qed.
    Lemma step_sim i (s' : ST') (s : ST) s1 : rel_state s' s -> step (reference e n) i s = Some s1 -> exists s1', step (implementation b e n) i s' = Some s1' /\ rel_state s1' s1.
    Proof using I Hn.
      intros R D. pose proof R as (RH & RM & RV & RK). destruct i; cbn [step] in *; rewrite ?RH.
      all: try match type of D with option_map _ ?x = Some _ => destruct x as [q|] eqn:E; [|discriminate D]; injection D as <- end.
      - eexists. split; [reflexivity|now apply set_h_rel].
      - injection D as <-. eexists. split; [reflexivity|]. apply set_v_rel; auto. apply generate_sim.
      - destruct (arith_sim op _ _ _ _ q (RV x) (RV y) E) as (r & -> & Q). eexists. split; [reflexivity|now apply set_v_rel].
      - destruct (negate_sim _ _ q (RV x) E) as (r & -> & Q). eexists. split; [reflexivity|now apply set_v_rel].
      - destruct (unary_sim op _ _ q (RV x) E) as (r & -> & Q). eexists. split; [reflexivity|now apply set_v_rel].
      - discriminate E.
      - discriminate E.
      - destruct (shift_sim op _ _ _ q (RV x) E) as (r & -> & Q). eexists. split; [reflexivity|now apply set_v_rel].
      - destruct (compare_sim op _ _ _ _ q (RV x) (RV y) E) as (r & -> & Q). eexists. split; [reflexivity|now apply set_m_rel].
      - destruct (logic_sim op _ _ _ _ q (RK x) (RK y) E) as (r & -> & Q). eexists. split; [reflexivity|now apply set_m_rel].
      - destruct (not_sim _ _ q (RK x) E) as (r & -> & Q). eexists. split; [reflexivity|now apply set_m_rel].
      - destruct (assign_sim _ _ _ _ _ _ q (RV d) (RV y) (RK k) E) as (r & -> & Q). eexists. split; [reflexivity|now apply set_v_rel].
      - destruct (move_sim _ _ _ q (RV x) E) as (r & -> & Q). eexists. split; [reflexivity|now apply set_v_rel].
      - destruct (shift_in_sim _ _ _ _ _ q (RV x) (RV y) E) as (r & -> & Q). eexists. split; [reflexivity|now apply set_v_rel].
      - destruct (interleave_sim _ _ _ _ q (RV x) (RV y) E) as (r & -> & Q1 & Q2). eexists. split; [reflexivity|]. apply set_v_rel; [|exact Q2]. now apply set_v_rel.
      - rewrite (reduce_sim op _ _ q (RV x) E). eexists. split; [reflexivity|now apply set_h_rel].
      - rewrite (reduce_mask_sim op _ _ _ _ q (RV x) (RK k) E). eexists. split; [reflexivity|now apply set_h_rel].
      - rewrite (get_sim _ _ _ q (RV x) E). eexists. split; [reflexivity|now apply set_h_rel].
      - destruct (set_sim _ _ _ _ q (RV x) E) as (r & -> & Q). eexists. split; [reflexivity|now apply set_v_rel].
      - destruct (load_sim _ _ _ q RM E) as (r & -> & Q). eexists. split; [reflexivity|now apply set_v_rel].
      - destruct (store_sim _ _ _ _ _ q (RV x) RM E) as (r & -> & Q). eexists. split; [reflexivity|now apply set_mem_rel].
      - injection D as <-. destruct (query_sim _ _ (RK k)) as (-> & _). eexists. split; [reflexivity|now apply set_h_rel].
      - injection D as <-. destruct (query_sim _ _ (RK k)) as (_ & -> & _). eexists. split; [reflexivity|now apply set_h_rel].
      - injection D as <-. destruct (query_sim _ _ (RK k)) as (_ & _ & ->). eexists. split; [reflexivity|now apply set_h_rel].
      - rewrite (mask_get_sim _ _ _ q (RK k) E). eexists. split; [reflexivity|now apply set_h_rel].
      - destruct (gather_sim _ _ _ _ _ _ (option_map (mr s') k) (option_map (mr s) k) q (RV d) RM ltac:(destruct k; [apply RK|exact Logic.I]) E) as (r & -> & Q). eexists. split; [reflexivity|now apply set_v_rel].
      - destruct (scatter_sim _ _ _ _ _ _ (option_map (mr s') k) (option_map (mr s) k) q (RV x) RM ltac:(destruct k; [apply RK|exact Logic.I]) E) as (r & -> & Q). eexists. split; [reflexivity|now apply set_mem_rel].
    Qed.
    Lemma run_sim : forall fuel p (s' : ST') (s s1 : ST), rel_state s' s -> run (reference e n) fuel p s = Some s1 -> exists s1', run (implementation b e n) fuel p s' = Some s1' /\ rel_state s1' s1.
    Proof using I Hn.
      induction fuel as [|fuel IH]; intros p s' s s1 R D; [discriminate D|]. destruct p as [i|p q|c p q|c p]; cbn [run] in *.
      - eapply step_sim; eauto.
      - destruct (run (reference e n) fuel p s) as [s2|] eqn:E; cbn [obind] in D; [|discriminate D]. destruct (IH _ _ _ _ R E) as (s2' & -> & R2). cbn [obind]. eapply IH; eauto.
      - pose proof R as (-> & _). destruct (c (hs s)); eapply IH; eauto.
      - pose proof R as (-> & _). destruct (c (hs s)); [|injection D as <-; eauto].
        destruct (run (reference e n) fuel p s) as [s2|] eqn:E; cbn [obind] in D; [|discriminate D]. destruct (IH _ _ _ _ R E) as (s2' & -> & R2). cbn [obind]. eapply IH; eauto.
    Qed.
  End Prog.
End Build.
