(** Single SSE vectors and masks (Vc::SSE::Vector<T>, Vc::SSE::Mask<T>), and SimdArray / SimdMaskArray reductions, queries and write-masking in SSE builds (proofs). *)
From Coq Require Import ZArith List Bool Lia.
From Verif.Spec Require Import Seq NativeSpec MaskSpec VectorSpec FloatSpec.
From Verif.Model Require Import SplitSize SimdArray SimdArrayOps ScalarVec Word Fp SseReg SseMove SortNet SseInt SseBuild SseArith SseMask SseNative.
Import ListNotations.
Local Open Scope Z_scope.
From Verif.Proof Require Import SeqP SimdArrayP SimdArrayOpsP WordP FpP SseMoveP SseVecP SortNetP SseIntP SseEmulP SseBuildP SseMaskP SseArithP SseNativeP SseFloatRedP.
From Verif.Props Require Import SimdArrayProps.

Lemma val_mod e (a : elt e) : e_val e a mod modulus (esize e) = uval a.
Proof. destruct e; cbn [e_val]; try apply sval_mod; apply Z.mod_small, uval_range. Qed.
Lemma add_val e (a b : elt e) : wadd a b = e_of e (e_val e a + e_val e b).
Proof. apply mkw_eq. rewrite <- (val_mod e a), <- (val_mod e b). symmetry. apply Zplus_mod. Qed.
Lemma sub_val e (a b : elt e) : wsub a b = e_of e (e_val e a - e_val e b).
Proof. apply mkw_eq. rewrite <- (val_mod e a), <- (val_mod e b). symmetry. apply Zminus_mod. Qed.
Lemma mul_val e (a b : elt e) : wmul a b = e_of e (e_val e a * e_val e b).
Proof. apply mkw_eq. rewrite <- (val_mod e a), <- (val_mod e b). symmetry. apply Zmult_mod. Qed.
Lemma neg_val e (a : elt e) : mkw (esize e) (- uval a) = e_of e (- e_val e a).
Proof.
  apply mkw_eq. rewrite <- (val_mod e a). rewrite <- (Z.sub_0_l (e_val e a)), <- (Z.sub_0_l (e_val e a mod _)). apply Zminus_mod_idemp_r.
Qed.
Lemma min_val e (a b : elt e) : is_integer e = true -> e_val e (e_min e a b) = Z.min (e_val e a) (e_val e b).
Proof.
  intros He. destruct e; try discriminate He; unfold e_min, e_val, le_s, le_u;
  match goal with |- context [?x <=? ?y] => destruct (Z.leb_spec x y) end; unfold elt in *; cbn [esize] in *; lia.
Qed.
Lemma max_val e (a b : elt e) : is_integer e = true -> e_val e (e_max e a b) = Z.max (e_val e a) (e_val e b).
Proof.
  intros He. destruct e; try discriminate He; unfold e_max, e_val, le_s, le_u;
  match goal with |- context [?x <=? ?y] => destruct (Z.leb_spec x y) end; unfold elt in *; cbn [esize] in *; lia.
Qed.
Lemma in_pos b (m : list bool) : In b m -> exists i, znth false m i = b.
Proof.
  intros H. apply In_nth with (d := false) in H. destruct H as [i [Hi E]]. exists (Z.of_nat i). unfold znth. rewrite Nat2Z.id.
  destruct (Z.leb_spec 0 (Z.of_nat i)), (Z.ltb_spec (Z.of_nat i) (Z.of_nat (length m))); cbn; auto; lia.
Qed.

Lemma fold_min e : is_integer e = true -> forall xs (a : elt e), In (fold_left (e_min e) xs a) (a :: xs) /\
  forall x, In x (a :: xs) -> e_val e (fold_left (e_min e) xs a) <= e_val e x.
Proof.
  intros He. induction xs as [|y xs IH]; intros a; cbn [fold_left].
  - split; [now left|]. intros x [<-|[]]. lia.
  - destruct (IH (e_min e a y)) as [H1 H2]. pose proof (min_val e a y He) as M. split.
    + destruct H1 as [H1|H1]; [|right; now right]. rewrite <- H1.
      assert (e_min e a y = a \/ e_min e a y = y) as [-> | ->]; [|now left|right; now left].
      destruct e; try discriminate He; unfold e_min; match goal with |- context [if ?b then _ else _] => destruct b end; auto.
    + intros x Hx. assert (e_val e (fold_left (e_min e) xs (e_min e a y)) <= e_val e (e_min e a y)) by (apply H2; now left).
      destruct Hx as [<-|[<-|Hx]]; [lia|lia|]. apply H2. now right.
Qed.
Lemma fold_max e : is_integer e = true -> forall xs (a : elt e), In (fold_left (e_max e) xs a) (a :: xs) /\
  forall x, In x (a :: xs) -> e_val e x <= e_val e (fold_left (e_max e) xs a).
Proof.
  intros He. induction xs as [|y xs IH]; intros a; cbn [fold_left].
  - split; [now left|]. intros x [<-|[]]. lia.
  - destruct (IH (e_max e a y)) as [H1 H2]. pose proof (max_val e a y He) as M. split.
    + destruct H1 as [H1|H1]; [|right; now right]. rewrite <- H1.
      assert (e_max e a y = a \/ e_max e a y = y) as [-> | ->]; [|now left|right; now left].
      destruct e; try discriminate He; unfold e_max; match goal with |- context [if ?b then _ else _] => destruct b end; auto.
    + intros x Hx. assert (e_val e (e_max e a y) <= e_val e (fold_left (e_max e) xs (e_max e a y))) by (apply H2; now left).
      destruct Hx as [<-|[<-|Hx]]; [lia|lia|]. apply H2. now right.
Qed.
Lemma red_min e xs (v : elt e) : is_integer e = true -> reduce_spec (e_min e) xs = Some v -> In v xs /\ forall x, In x xs -> e_val e v <= e_val e x.
Proof. intros He. destruct xs as [|a xs]; [easy|]. cbn. intros H. injection H as <-. now apply fold_min. Qed.
Lemma red_max e xs (v : elt e) : is_integer e = true -> reduce_spec (e_max e) xs = Some v -> In v xs /\ forall x, In x xs -> e_val e x <= e_val e v.
Proof. intros He. destruct xs as [|a xs]; [easy|]. cbn. intros H. injection H as <-. now apply fold_max. Qed.

Lemma C13_sse_min_max_main :
  forall sse41 e n (t : sa (elt e)), is_integer e = true -> wf (sse_native (esize e)) n t ->
    exists lo hi, reduce (sse_min sse41 e) (e_min e) t = Some lo /\ reduce (sse_max sse41 e) (e_max e) t = Some hi /\
      In lo (to_list t) /\ In hi (to_list t) /\
      forall x, In x (to_list t) -> e_val e lo <= e_val e x <= e_val e hi.
Proof.
  intros sse41 e n t He W.
  destruct (C13_reduce _ _ (e_min e) (sse_min sse41 e) n t (build_widths e) (sse_min_ok sse41 e He) (e_min_assoc e He) (e_min_comm e He) W) as [lo [A B]].
  destruct (C13_reduce _ _ (e_max e) (sse_max sse41 e) n t (build_widths e) (sse_max_ok sse41 e He) (e_max_assoc e He) (e_max_comm e He) W) as [hi [C D]].
  apply red_min in B; auto. apply red_max in D; auto.
  exists lo, hi. repeat split; auto; try tauto; [apply B|apply D]; auto.
Qed.

Lemma mkw_val e (a : elt e) : e_of e (e_val e a) = a.
Proof. apply word_ext. unfold e_of. rewrite uval_mkw. apply val_mod. Qed.
Lemma of_add e z z' : wadd (e_of e z) (e_of e z') = e_of e (z + z').
Proof. apply mkw_eq. unfold e_of. rewrite !uval_mkw. symmetry. apply Zplus_mod. Qed.
Lemma of_mul e z z' : wmul (e_of e z) (e_of e z') = e_of e (z * z').
Proof. apply mkw_eq. unfold e_of. rewrite !uval_mkw. symmetry. apply Zmult_mod. Qed.
Lemma sum_val e : forall (xs : list (elt e)) a, fold_left wadd xs (e_of e a) = e_of e (a + fold_right Z.add 0 (map (e_val e) xs)).
Proof.
  induction xs as [|x xs IH]; intros a; cbn [fold_left fold_right map]; [now rewrite Z.add_0_r|].
  rewrite <- (mkw_val e x) at 1. rewrite of_add, IH. f_equal. lia.
Qed.
Lemma prod_val e : forall (xs : list (elt e)) a, fold_left wmul xs (e_of e a) = e_of e (a * fold_right Z.mul 1 (map (e_val e) xs)).
Proof.
  induction xs as [|x xs IH]; intros a; cbn [fold_left fold_right map]; [now rewrite Z.mul_1_r|].
  rewrite <- (mkw_val e x) at 1. rewrite of_mul, IH. f_equal. ring.
Qed.
Lemma red_sum e xs (v : elt e) : reduce_spec wadd xs = Some v -> v = e_of e (fold_right Z.add 0 (map (e_val e) xs)).
Proof. destruct xs as [|x xs]; [easy|]. cbn. intros H. injection H as <-. rewrite <- (mkw_val e x) at 1. apply sum_val. Qed.
Lemma red_prod e xs (v : elt e) : reduce_spec wmul xs = Some v -> v = e_of e (fold_right Z.mul 1 (map (e_val e) xs)).
Proof. destruct xs as [|x xs]; [easy|]. cbn. intros H. injection H as <-. rewrite <- (mkw_val e x) at 1. apply prod_val. Qed.

Lemma C13_sse_sum_product_main :
  forall sse41 e n (t : sa (elt e)), is_integer e = true -> wf (sse_native (esize e)) n t ->
    reduce (sse_sum e) wadd t = Some (e_of e (fold_right Z.add 0 (map (e_val e) (to_list t)))) /\
    reduce (sse_product sse41 e) wmul t = Some (e_of e (fold_right Z.mul 1 (map (e_val e) (to_list t)))).
Proof.
  intros sse41 e n t He W.
  destruct (C13_reduce _ _ wadd (sse_sum e) n t (build_widths e) (sse_sum_ok e He) wadd_assoc wadd_comm W) as [s [A B]].
  destruct (C13_reduce _ _ wmul (sse_product sse41 e) n t (build_widths e) (sse_product_ok sse41 e He) wmul_assoc wmul_comm W) as [p [C D]].
  apply red_sum in B. apply red_prod in D. subst. auto.
Qed.

Lemma C13_sse_float_min_max_main :
  forall sse41 e (xs : list (elt e)), is_integer e = false -> length xs = (16 / esize e)%nat ->
    (forall x, In x xs -> is_NaN x = false) ->
    least float_le xs (v_min_all sse41 e (pack xs)) /\ greatest float_le xs (v_max_all sse41 e (pack xs)).
Proof.
  intros sse41 e xs He L N. split; [now apply fmin_least|now apply fmax_greatest].
Qed.

Lemma C13_sse_float_sum_order_main :
  (forall (op : word 4 -> word 4 -> word 4) a b c d, h_add_ps op (pack [a; b; c; d]) = op (op a d) (op b c)) /\
  (forall (op : word 8 -> word 8 -> word 8) a b, h_add_pd op (pack [a; b]) = op a b).
Proof.
  split; [exact haps_pack|exact hapd_pack].
Qed.

Lemma C14_sse_masked_min_max_main :
  forall sse41 ptest hw e n (t : sa (elt e)) (k : sa bool), is_integer e = true ->
    wf (sse_native (esize e)) n t -> wf (sse_native (esize e)) n k -> (exists i, znth false (to_list k) i = true) ->
    let sel := select_spec (to_list k) (to_list t) in
    exists lo hi,
      reduce_masked (sse_mask_ops ptest hw (esize e)) (sse_min_masked sse41 e) (e_min e) t k = Some lo /\
      reduce_masked (sse_mask_ops ptest hw (esize e)) (sse_max_masked sse41 e) (e_max e) t k = Some hi /\
      In lo sel /\ In hi sel /\ forall x, In x sel -> e_val e lo <= e_val e x <= e_val e hi.
Proof.
  intros sse41 ptest hw e n t k He W Wk Hk sel.
  destruct (C14_reduce_masked _ _ _ (e_min e) (sse_min_masked sse41 e) n t k (build_widths e) (sse_masks ptest hw _ (esize_ok e)) (sse_min_masked_ok sse41 e He) (e_min_assoc e He) W Wk Hk) as [lo [A B]].
  destruct (C14_reduce_masked _ _ _ (e_max e) (sse_max_masked sse41 e) n t k (build_widths e) (sse_masks ptest hw _ (esize_ok e)) (sse_max_masked_ok sse41 e He) (e_max_assoc e He) W Wk Hk) as [hi [C D]].
  apply red_min in B; auto. apply red_max in D; auto.
  exists lo, hi. repeat split; auto; try tauto; [apply B|apply D]; auto.
Qed.

Lemma C14_sse_masked_sum_product_main :
  forall sse41 ptest hw e n (t : sa (elt e)) (k : sa bool), is_integer e = true ->
    wf (sse_native (esize e)) n t -> wf (sse_native (esize e)) n k -> (exists i, znth false (to_list k) i = true) ->
    let sel := map (e_val e) (select_spec (to_list k) (to_list t)) in
    reduce_masked (sse_mask_ops ptest hw (esize e)) (sse_sum_masked sse41 e) wadd t k = Some (e_of e (fold_right Z.add 0 sel)) /\
    reduce_masked (sse_mask_ops ptest hw (esize e)) (sse_product_masked sse41 e) wmul t k = Some (e_of e (fold_right Z.mul 1 sel)).
Proof.
  intros sse41 ptest hw e n t k He W Wk Hk sel.
  destruct (C14_reduce_masked _ _ _ wadd (sse_sum_masked sse41 e) n t k (build_widths e) (sse_masks ptest hw _ (esize_ok e)) (sse_sum_masked_ok sse41 e He) wadd_assoc W Wk Hk) as [lo [A B]].
  destruct (C14_reduce_masked _ _ _ wmul (sse_product_masked sse41 e) n t k (build_widths e) (sse_masks ptest hw _ (esize_ok e)) (sse_product_masked_ok sse41 e He) wmul_assoc W Wk Hk) as [hi [C D]].
  apply red_sum in B. apply red_prod in D. subst. auto.
Qed.

Lemma C14_sse_float_min_masked_partial_main :
  forall sse41 e (xs : list (elt e)) m, is_integer e = false -> length xs = (16 / esize e)%nat -> length m = length xs ->
    select_spec m xs <> [] -> (forall x, In x (select_spec m xs) -> is_NaN x = false /\ float_le x (largest_finite _) = true) ->
    least float_le (select_spec m xs) (v_min_masked sse41 e (pack xs) (mask_reg (esize e) m)).
Proof.
  intros sse41 e xs m He L Lm NE H. apply fmin_masked_ok; auto; intros x Hx; now apply H.
Qed.

Lemma C14_sse_float_min_masked_refuted_main :
  forall sse41 e (xs : list (elt e)) m, is_integer e = false -> length xs = (16 / esize e)%nat -> length m = length xs ->
    In false m -> (forall x, In x (select_spec m xs) -> float_lt (largest_finite _) x = true) ->
    v_min_masked sse41 e (pack xs) (mask_reg (esize e) m) = largest_finite _.
Proof.
  intros sse41 e xs m He L Lm F H. apply fmin_masked_wrong; auto. intros x Hx. specialize (H x Hx).
  unfold float_lt, ordered in H. apply andb_prop in H. destruct H as [H _]. apply andb_prop in H. destruct H as [_ H]. now destruct (is_NaN x).
Qed.

Lemma C14_sse_float_max_masked_partial_main :
  forall sse41 e (xs : list (elt e)) m, is_integer e = false -> length xs = (16 / esize e)%nat -> length m = length xs ->
    (forall x, In x (select_spec m xs) -> is_NaN x = false) ->
    (exists x, In x (select_spec m xs) /\ float_le (smallest_normal _) x = true) ->
    greatest float_le (select_spec m xs) (v_max_masked sse41 e (pack xs) (mask_reg (esize e) m)).
Proof.
  intros sse41 e xs m He L Lm N H. apply fmax_masked_ok; auto.
Qed.

Lemma C14_sse_float_max_masked_refuted_main :
  forall sse41 e (xs : list (elt e)) m, is_integer e = false -> length xs = (16 / esize e)%nat -> length m = length xs ->
    In false m -> (forall x, In x (select_spec m xs) -> float_lt x (smallest_normal _) = true) ->
    v_max_masked sse41 e (pack xs) (mask_reg (esize e) m) = smallest_normal _.
Proof.
  intros sse41 e xs m He L Lm F H. apply fmax_masked_wrong; auto. intros x Hx. specialize (H x Hx).
  unfold float_lt, ordered in H. apply andb_prop in H. destruct H as [H _]. apply andb_prop in H. destruct H as [H _]. now destruct (is_NaN x).
Qed.

Lemma C15_sse_masked_assign_main :
  forall sse41 e n (x v : sa (elt e)) (k : sa bool),
    wf (sse_native (esize e)) n x -> wf (sse_native (esize e)) n v -> wf (sse_native (esize e)) n k ->
    exists r, assign (sse_assign sse41 e) x v k = Some r /\ wf (sse_native (esize e)) n r /\
      to_list r = masked_update_spec (to_list k) (to_list v) (to_list x).
Proof.
  intros sse41 e n x v k. apply C15_masked_assign; [apply build_widths|apply sse_assign_native].
Qed.

Lemma C15_sse_iif_main :
  forall sse41 e n (k : sa bool) (a b : sa (elt e)),
    wf (sse_native (esize e)) n k -> wf (sse_native (esize e)) n a -> wf (sse_native (esize e)) n b ->
    exists r, iif (sse_assign sse41 e) k a b = Some r /\ wf (sse_native (esize e)) n r /\
      to_list r = map3 (fun (m : bool) x y => if m then x else y) (to_list k) (to_list a) (to_list b).
Proof.
  intros sse41 e n k a b. apply C15_iif; [apply build_widths|apply sse_assign_native].
Qed.

Lemma C15_sse_masked_op_assign_main :
  forall sse41 e (f : elt e -> elt e -> elt e) n (x y : sa (elt e)) (k : sa bool),
    wf (sse_native (esize e)) n x -> wf (sse_native (esize e)) n y -> wf (sse_native (esize e)) n k ->
    exists r, masked_op_assign (sse_assign sse41 e) f x y k = Some r /\ wf (sse_native (esize e)) n r /\
      to_list r = map3 (fun (b : bool) a c => if b then f a c else a) (to_list k) (to_list x) (to_list y).
Proof.
  intros sse41 e f n x y k. apply C15_masked_op_assign; [apply build_widths|apply sse_assign_native].
Qed.

Lemma add_one e (a : elt e) : wadd a (mkw (esize e) 1) = e_of e (e_val e a + 1).
Proof. change (mkw (esize e) 1) with (e_of e 1). rewrite <- (mkw_val e a) at 1. apply of_add. Qed.
Lemma of_sub e z z' : wsub (e_of e z) (e_of e z') = e_of e (z - z').
Proof. apply mkw_eq. unfold e_of. rewrite !uval_mkw. symmetry. apply Zminus_mod. Qed.
Lemma sub_one e (a : elt e) : wsub a (mkw (esize e) 1) = e_of e (e_val e a - 1).
Proof. change (mkw (esize e) 1) with (e_of e 1). rewrite <- (mkw_val e a) at 1. apply of_sub. Qed.
Lemma wsub_0_r w (a : word w) : wsub a (w0 w) = a.
Proof. apply word_ext. unfold wsub. rewrite uval_mkw, uval_w0, Z.sub_0_r. apply Z.mod_small, uval_range. Qed.

Lemma C15_sse_masked_increment_main :
  forall e n (x : sa (elt e)) (k : sa bool), is_integer e = true ->
    wf (sse_native (esize e)) n x -> wf (sse_native (esize e)) n k ->
    (exists r, masked_increment (sse_zero_inverted e) wadd (mkw _ 1) x k = Some r /\ wf (sse_native (esize e)) n r /\
      to_list r = map2 (fun (b : bool) a => if b then e_of e (e_val e a + 1) else a) (to_list k) (to_list x)) /\
    (exists r, masked_increment (sse_zero_inverted e) wsub (mkw _ 1) x k = Some r /\ wf (sse_native (esize e)) n r /\
      to_list r = map2 (fun (b : bool) a => if b then e_of e (e_val e a - 1) else a) (to_list k) (to_list x)).
Proof.
  intros e n x k He W Wk. split.
  - destruct (C15_masked_increment _ _ (w0 _) (sse_zero_inverted e) wadd (mkw _ 1) n x k (build_widths e) (sse_zero_inverted_native e)) as [r [A [B C]]]; auto.
    { intros a. rewrite wadd_comm. apply wadd_0_l. }
    exists r. repeat split; auto. refine (eq_trans C _). apply map2_ext. intros b a. destruct b; auto. apply (add_one e).
  - destruct (C15_masked_increment _ _ (w0 _) (sse_zero_inverted e) wsub (mkw _ 1) n x k (build_widths e) (sse_zero_inverted_native e)) as [r [A [B C]]]; auto.
    { apply wsub_0_r. }
    exists r. repeat split; auto. refine (eq_trans C _). apply map2_ext. intros b a. destruct b; auto. apply (sub_one e).
Qed.

Lemma C15_sse_masked_increment_refuted_main :
  forall e (fadd : elt e -> elt e -> elt e) (one : elt e) n (x : sa (elt e)) (k : sa bool) i, is_integer e = false ->
    fadd (neg_zero _) (w0 _) = w0 _ ->
    wf (sse_native (esize e)) n x -> wf (sse_native (esize e)) n k -> 0 <= i < Z.of_nat n ->
    znth (w0 _) (to_list x) i = neg_zero _ -> znth false (to_list k) i = false ->
    exists r, masked_increment (sse_zero_inverted e) fadd one x k = Some r /\ znth (w0 _) (to_list r) i = w0 _ /\ neg_zero (esize e) <> w0 _.
Proof.
  intros e fadd one n x k i He Hz W Wk Hi Hx Hk.
  destruct (SimdArrayOpsP.masked_increment_gen _ (build_widths e) (w0 _) (sse_zero_inverted e) (sse_zero_inverted_native e) fadd one n x k W Wk) as [r [A [B C]]].
  exists r. split; auto. split.
  - pose proof (wf_len _ (build_widths e) _ _ W) as Lx. pose proof (wf_len _ (build_widths e) _ _ Wk) as Lk. unfold elt in *.
    rewrite C, (znth_map2 _ _ _ _ false (w0 (esize e))) by lia. now rewrite Hx, Hk.
  - destruct e; try discriminate He; intros E; apply (f_equal uval) in E; vm_compute in E; discriminate E.
Qed.

Lemma C16_sse_mask_queries_main :
  forall ptest hw e n (m : sa bool), wf (sse_native (esize e)) n m ->
    let K := sse_mask_ops ptest hw (esize e) in
    (is_full K m = true <-> forall b, In b (to_list m) -> b = true) /\
    (is_empty K m = true <-> forall b, In b (to_list m) -> b = false) /\
    (is_not_empty K m = true <-> exists b, In b (to_list m) /\ b = true) /\
    (is_mix K m = true <-> In true (to_list m) /\ In false (to_list m)) /\
    SimdArrayOps.count K m = count_spec (to_list m) /\
    (In true (to_list m) -> first_one_spec (to_list m) (first_one K m)).
Proof.
  intros ptest hw e n m W. apply (C16_mask_queries (sse_native (esize e)) _ n); auto. apply build_widths. apply sse_masks, esize_ok.
Qed.

Lemma C16_sse_mask_to_int_main :
  forall ptest hw e n (m m' : sa bool), wf (sse_native (esize e)) n m -> wf (sse_native (esize e)) n m' ->
    let K := sse_mask_ops ptest hw (esize e) in
    ((n <= 31)%nat -> exists v, to_int K m = Some v /\ 0 <= v < 2 ^ Z.of_nat n /\
      forall i, 0 <= i < Z.of_nat n -> Z.testbit v i = znth false (to_list m) i) /\
    exists b, mask_eq K m m' = Some b /\ mask_neq K m m' = Some (negb b) /\ (b = true <-> to_list m = to_list m').
Proof.
  intros ptest hw e n m m' W W' K. split.
  - intros Hn. apply (C16_mask_to_int (sse_native (esize e))); auto. apply build_widths. apply sse_masks, esize_ok.
  - apply (C16_mask_equality (sse_native (esize e)) K n); auto. apply build_widths. apply sse_masks, esize_ok.
Qed.

Lemma not_none m : negb (forallb negb m) = true <-> In true m.
Proof.
  rewrite negb_true_iff. split.
  - intros H. induction m as [|b m IH]; cbn in *; [discriminate|]. destruct b; auto.
  - intros H. apply not_true_is_false. intros F. rewrite forallb_none in F. apply F in H. discriminate H.
Qed.
Lemma not_all m : negb (forallb (fun b : bool => b) m) = true <-> In false m.
Proof.
  rewrite negb_true_iff. split.
  - intros H. induction m as [|b m IH]; cbn in *; [discriminate|]. destruct b; auto.
  - intros H. apply not_true_is_false. intros F. rewrite forallb_all in F. apply F in H. discriminate H.
Qed.

Lemma C16_sse_native_mask_main :
  forall ptest hw e m, length m = (16 / esize e)%nat ->
    let k := mask_reg (esize e) m in
    (m_full ptest k = true <-> forall b, In b m -> b = true) /\
    (m_empty ptest k = true <-> forall b, In b m -> b = false) /\
    (m_not_empty ptest k = true <-> In true m) /\
    (m_mix ptest k = true <-> In true m /\ In false m) /\
    m_count hw (esize e) k = count_spec m /\
    m_to_int (esize e) k = to_int_spec m /\
    match m_first (esize e) k with
    | Some i => 0 <= i < Z.of_nat (length m) /\ first_one_spec m i
    | None => forall b, In b m -> b = false
    end.
Proof.
  intros ptest hw e m L k. unfold k. pose proof (esize_ok e) as Hw.
  rewrite m_full_ok, m_empty_ok, m_not_empty_ok, m_mix_ok, m_count_ok, m_to_int_ok by auto.
  rewrite forallb_all, forallb_none, not_none, andb_true_iff, not_none, not_all.
  repeat (split; [easy|]). apply m_first_ok; auto.
Qed.

Lemma list_set_tab {A} (d : A) xs i v : 0 <= i < Z.of_nat (length xs) ->
  list_set xs (Z.to_nat i) v = tab (length xs) (fun j => if j =? i then v else znth d xs j).
Proof.
  intros H. apply (list_ext_tab _ d); [apply SimdArrayOpsP.list_set_length|]. intros z Hz. now rewrite (SimdArrayOpsP.list_set_nth d) by auto.
Qed.

Lemma C17_sse_mask_entries_main :
  forall e m (gen : Z -> bool) (b : bool) i, length m = (16 / esize e)%nat -> 0 <= i < Z.of_nat (16 / esize e) ->
    m_broadcast b = mask_reg (esize e) (repeat b (16 / esize e)) /\
    m_generate (esize e) gen = mask_reg (esize e) (tab (16 / esize e) gen) /\
    m_get (esize e) (mask_reg (esize e) m) i = znth false m i /\
    m_set (esize e) (mask_reg (esize e) m) i b = mask_reg (esize e) (tab (16 / esize e) (fun j => if j =? i then b else znth false m j)).
Proof.
  intros e m gen b i L Hi. pose proof (esize_ok e) as Hw. repeat split.
  - now apply m_broadcast_ok.
  - apply m_generate_ok.
  - now apply m_get_ok.
  - rewrite m_set_ok by auto. f_equal. rewrite (list_set_tab false) by lia. now rewrite L.
Qed.

Lemma C17_sse_mask_logic_main :
  forall e a b, length a = (16 / esize e)%nat -> length b = (16 / esize e)%nat ->
    let K := mask_reg (esize e) in
    m_not (K a) = K (map negb a) /\ m_and (K a) (K b) = K (map2 andb a b) /\
    m_or (K a) (K b) = K (map2 orb a b) /\ m_xor (K a) (K b) = K (map2 xorb a b).
Proof.
  intros e a b La Lb K. unfold K. rewrite m_not_ok, m_and_ok, m_or_ok, m_xor_ok by (auto; try apply esize_ok; congruence). auto.
Qed.

Lemma C17_sse_mask_shifted_main :
  forall e m k, length m = (16 / esize e)%nat -> - 2 ^ 31 <= k * Z.of_nat (esize e) < 2 ^ 31 ->
    m_shifted (esize e) (mask_reg (esize e) m) k = Some (mask_reg (esize e) (shift_spec false m k)).
Proof.
  intros e m k L H. apply m_shifted_ok; auto. apply esize_ok.
Qed.

Lemma C18_sse_mask_load_store_main :
  forall e m, length m = (16 / esize e)%nat ->
    m_store (esize e) (mask_reg (esize e) m) = map (fun b : bool => if b then 1 else 0) m /\
    m_load (esize e) (map (fun b : bool => if b then 1 else 0) m) = mask_reg (esize e) m.
Proof.
  intros e m L. pose proof (m_store_ok _ m (esize_ok e) L) as S. pose proof (m_load_ok _ m (esize_ok e) L) as R. split; assumption.
Qed.

Lemma C19_sse_mask_cast_main :
  forall e e' m, length m = (16 / esize e)%nat ->
    mask_cast (16 / esize e) (16 / esize e') (mask_reg (esize e) m) = Some (mask_reg (esize e') (cast_spec (16 / esize e') m)).
Proof.
  intros e e' m L. pose proof (mask_cast_ok (16 / esize e) (16 / esize e') m) as H.
  destruct e, e'; apply H; auto; cbn; auto.
Qed.

Lemma C21_sse_compare_main :
  forall e (xs ys : list (elt e)), is_integer e = true -> length xs = (16 / esize e)%nat -> length ys = (16 / esize e)%nat ->
    let R := pack xs in let S := pack ys in let val := e_val e in
    let K f := mask_reg (esize e) (map2 f xs ys) in
    v_eq e R S = K (fun a b => val a =? val b) /\ v_ne e R S = K (fun a b => negb (val a =? val b)) /\
    v_lt e R S = K (fun a b => val a <? val b) /\ v_le e R S = K (fun a b => val a <=? val b) /\
    v_gt e R S = K (fun a b => val b <? val a) /\ v_ge e R S = K (fun a b => val b <=? val a).
Proof.
  intros e xs ys He Hx Hy R S val K. unfold R, S, K, val.
  rewrite v_eq_int, v_ne_int, v_lt_int, v_le_int, v_gt_int, v_ge_int by auto. auto 10.
Qed.

Lemma C21_sse_compare_64_main :
  forall (sse4 : bool) (a b c d : word 8),
    cmpeq_epi64 sse4 (pack [a; b]) (pack [c; d]) = mask_reg 8 [uval a =? uval c; uval b =? uval d] /\
    cmpgt_epi64 sse4 (pack [a; b]) (pack [c; d]) = mask_reg 8 [sval c <? sval a; sval d <? sval b].
Proof.
  intros sse4 a b c d. rewrite cmpeq_epi64_pack, cmpgt_epi64_pack by reflexivity. auto.
Qed.

Lemma C22_sse_arithmetic_main :
  forall sse41 ssse3 e (xs ys : list (elt e)), is_integer e = true -> length xs = (16 / esize e)%nat -> length ys = (16 / esize e)%nat ->
    let val := e_val e in
    v_add e (pack xs) (pack ys) = pack (map2 (fun a b => e_of e (val a + val b)) xs ys) /\
    v_sub e (pack xs) (pack ys) = pack (map2 (fun a b => e_of e (val a - val b)) xs ys) /\
    v_mul sse41 e (pack xs) (pack ys) = pack (map2 (fun a b => e_of e (val a * val b)) xs ys) /\
    v_neg ssse3 e (pack xs) = pack (map (fun a => e_of e (- val a)) xs) /\
    v_increment e (pack xs) = pack (map (fun a => e_of e (val a + 1)) xs) /\
    v_decrement e (pack xs) = pack (map (fun a => e_of e (val a - 1)) xs).
Proof.
  intros sse41 ssse3 e xs ys He Hx Hy val. unfold val. repeat split.
  - rewrite v_add_pack by auto. f_equal. apply map2_ext. intros. apply add_val.
  - rewrite v_sub_pack by auto. f_equal. apply map2_ext. intros. apply sub_val.
  - rewrite v_mul_pack by auto. f_equal. apply map2_ext. intros. apply mul_val.
  - rewrite v_neg_int by auto. f_equal. apply map_ext. intros. apply neg_val.
  - unfold v_increment. rewrite set1_pack, v_add_pack by (rewrite ?repeat_length; auto). f_equal.
    rewrite map2_repeat_r by auto. apply map_ext. intros. apply add_one.
  - unfold v_decrement. rewrite set1_pack, v_sub_pack by (rewrite ?repeat_length; auto). f_equal.
    rewrite map2_repeat_r by auto. apply map_ext. intros. apply sub_one.
Qed.

Lemma C22_sse_min_max_main :
  forall sse41 e (xs ys : list (elt e)), is_integer e = true -> length xs = (16 / esize e)%nat -> length ys = (16 / esize e)%nat ->
    map (e_val e) (lanes (esize e) (v_min sse41 e (pack xs) (pack ys))) = map2 Z.min (map (e_val e) xs) (map (e_val e) ys) /\
    map (e_val e) (lanes (esize e) (v_max sse41 e (pack xs) (pack ys))) = map2 Z.max (map (e_val e) xs) (map (e_val e) ys).
Proof.
  intros sse41 e xs ys He Hx Hy. rewrite v_min_pack, v_max_pack by auto.
  rewrite !lanes_pack by (rewrite map2_length, Hx, Hy; lia). rewrite !map_map2, !map2_map. split; apply map2_ext; intros.
  - now apply min_val.
  - now apply max_val.
Qed.

Lemma C22_sse_shift_main :
  forall e (xs : list (elt e)) k, is_integer e = true -> length xs = (16 / esize e)%nat -> 0 <= k < bits (esize e) ->
    v_shl e (pack xs) k = pack (map (fun a => e_of e (e_val e a * 2 ^ k)) xs) /\
    v_shr e (pack xs) k = pack (map (fun a => e_of e (e_val e a / 2 ^ k)) xs).
Proof.
  intros e xs k He Hx Hk. split.
  - unfold v_shl, slli_epi. rewrite lift1_pack by auto. f_equal. apply map_ext. intros a. apply mkw_eq. rewrite <- (val_mod e a). apply Zmult_mod_idemp_l.
  - destruct e; try discriminate He; unfold v_shr, srli_epi, srai_epi; rewrite lift1_pack by auto; reflexivity.
Qed.

Lemma C22_sse_abs_main :
  forall ssse3 w (xs : list (word w)), w = 1%nat \/ w = 2%nat \/ w = 4%nat -> length xs = (16 / w)%nat ->
    abs_epi ssse3 w (pack xs) = pack (map (fun a => mkw w (Z.abs (sval a))) xs).
Proof.
  exact abs_epi_pack.
Qed.

Lemma C22_sse_blend_main :
  forall sse41 m,
    (forall xs ys : list (word 8), 0 <= m < 4 -> length xs = 2%nat -> length ys = 2%nat ->
       blend_pd sse41 (Z.to_nat m) (pack xs) (pack ys) = Some (pack (blend_spec m xs ys))) /\
    (forall xs ys : list (word 4), 0 <= m < 16 -> length xs = 4%nat -> length ys = 4%nat ->
       blend_ps sse41 (Z.to_nat m) (pack xs) (pack ys) = Some (pack (blend_spec m xs ys))) /\
    (forall xs ys : list (word 2), 0 <= m < 256 -> length xs = 8%nat -> length ys = 8%nat ->
       blend_epi16 sse41 m (pack xs) (pack ys) = pack (blend_spec m xs ys)) /\
    (forall e (xs ys : list (elt e)) k, length xs = (16 / esize e)%nat -> length ys = length xs -> length k = length xs ->
       blendv_epi8 sse41 (pack xs) (pack ys) (mask_reg (esize e) k) = pack (masked_update_spec k ys xs)).
Proof.
  intros sse41 m. repeat split; intros.
  - now apply blend_pd_pack. - now apply blend_ps_pack. - now apply blend_epi16_pack.
  - apply (v_assign_ok sse41 e xs ys k); auto.
Qed.

Lemma C22_sse_widen_main :
  forall sse41,
    (forall w (xs : list (word w)), w = 1%nat \/ w = 2%nat -> length xs = (16 / w)%nat ->
      cvtepu sse41 w (pack xs) = pack (map (fun x => mkw (2 * w) (uval x)) (firstn (8 / w) xs)) /\
      cvtepi sse41 w (pack xs) = pack (map (fun x => mkw (2 * w) (sval x)) (firstn (8 / w) xs))) /\
    (forall xs : list (word 1), length xs = 16%nat ->
      cvtepu8_epi32 sse41 (pack xs) = pack (map (fun x => mkw 4 (uval x)) (firstn 4 xs)) /\
      cvtepi8_epi32 sse41 (pack xs) = pack (map (fun x => mkw 4 (sval x)) (firstn 4 xs))).
Proof.
  intros sse41. split.
  - intros w xs Hw L. split; [apply cvtepu_pack|apply cvtepi_pack]; auto; tauto.
  - intros xs L. split; [now apply cvtepu8_epi32_pack|now apply cvtepi8_epi32_pack].
Qed.

Lemma C22_sse_float_negate_main :
  forall ssse3 e (xs : list (elt e)), is_integer e = false -> length xs = (16 / esize e)%nat ->
    exists ys : list (elt e), v_neg ssse3 e (pack xs) = pack ys /\ map fvalue ys = map (fun x => - fvalue x) xs /\
      map sign_bit ys = map (fun x => negb (sign_bit x)) xs /\ map is_NaN ys = map is_NaN xs.
Proof.
  intros ssse3 e xs He L. eexists. split; [now apply v_neg_fp|]. rewrite !map_map.
  repeat split; apply map_ext; intros x; now apply (neg_float_value (esize e) x (float_fp e He)).
Qed.

Lemma C39_sse_float_compare_main :
  forall e (xs ys : list (elt e)), is_integer e = false -> length xs = (16 / esize e)%nat -> length ys = (16 / esize e)%nat ->
    let R := pack xs in let S := pack ys in let K f := mask_reg (esize e) (map2 f xs ys) in
    v_eq e R S = K float_eq /\ v_ne e R S = K (fun a b => negb (float_eq a b)) /\
    v_lt e R S = K float_lt /\ v_le e R S = K float_le /\ v_gt e R S = K (fun a b => float_lt b a).
Proof.
  intros e xs ys He Hx Hy R S K. unfold R, S, K.
  rewrite v_eq_fp, v_ne_fp, v_lt_fp, v_le_fp, v_gt_fp by auto. auto 10.
Qed.

Lemma C39_sse_float_ge_partial_main :
  forall e (xs ys : list (elt e)), is_integer e = false -> length xs = (16 / esize e)%nat -> length ys = (16 / esize e)%nat ->
    (forall x, In x (xs ++ ys) -> is_NaN x = false) ->
    v_ge e (pack xs) (pack ys) = mask_reg (esize e) (map2 (fun a b => float_le b a) xs ys).
Proof.
  intros e xs ys He Hx Hy N. rewrite v_ge_fp by auto. f_equal.
  assert (L : length xs = length ys) by (unfold elt in *; congruence). clear Hx Hy. revert ys L N. induction xs as [|x xs IH]; intros [|y ys] L N; cbn in L; try discriminate L; auto.
  cbn [map2]. f_equal.
  - unfold float_lt, float_le, ordered. rewrite (N x), (N y) by (cbn; rewrite ?in_app_iff; cbn; auto). cbn. now rewrite Z.leb_antisym.
  - apply IH; [lia|]. intros z Hz. apply N. rewrite in_app_iff in *. cbn. tauto.
Qed.

Lemma nth_map2 {X Y Z} (f : X -> Y -> Z) dx dy dz : forall i xs ys, (i < length xs)%nat -> (i < length ys)%nat -> nth i (map2 f xs ys) dz = f (nth i xs dx) (nth i ys dy).
Proof. induction i; intros [|x xs] [|y ys]; cbn; intros; try lia; auto. apply IHi; lia. Qed.

Lemma C39_sse_float_ge_refuted_main :
  forall e (xs ys : list (elt e)), is_integer e = false -> length xs = (16 / esize e)%nat -> length ys = (16 / esize e)%nat ->
    forall i, (i < 16 / esize e)%nat -> is_NaN (nth i xs (w0 _)) || is_NaN (nth i ys (w0 _)) = true ->
    nth i (lanes (esize e) (v_ge e (pack xs) (pack ys))) (w0 _) = wmask _ true /\
    float_le (nth i ys (w0 _)) (nth i xs (w0 _)) = false.
Proof.
  intros e xs ys He Hx Hy i Hi N. split.
  - rewrite v_ge_fp by auto. unfold mask_reg. rewrite lanes_pack by (rewrite map_length, map2_length; unfold elt in *; lia).
    rewrite (nth_indep _ (w0 _) (wmask (esize e) false)) by (rewrite map_length, map2_length; unfold elt in *; lia). rewrite map_nth. f_equal.
    rewrite (nth_map2 _ (w0 _) (w0 _)) by (unfold elt in *; lia).
    unfold float_lt, ordered. apply orb_true_iff in N; unfold elt in *; destruct N as [N|N]; rewrite N; rewrite ?andb_false_r; reflexivity.
  - unfold float_le, ordered. apply orb_true_iff in N; unfold elt in *; destruct N as [N|N]; rewrite N; rewrite ?andb_false_r; reflexivity.
Qed.
