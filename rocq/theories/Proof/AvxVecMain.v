(** Single AVX vectors and masks (Vc::AVX2::Vector<T>, Vc::AVX2::Mask<T>), and SimdArray / SimdMaskArray reductions, queries and write-masking in AVX builds (proofs). *)
From Coq Require Import ZArith List Bool Lia.
From Verif.Spec Require Import Seq NativeSpec MaskSpec VectorSpec FloatSpec.
From Verif.Model Require Import SplitSize SimdArray SimdArrayOps ScalarVec Word Fp SseReg SseMove SortNet SseInt SseBuild SseArith SseMask SseNative AvxReg AvxMove AvxBuild AvxShuffle AvxMask AvxArith.
Import ListNotations.
Local Open Scope Z_scope.
From Verif.Proof Require Import SeqP SimdArrayP SimdArrayOpsP WordP FpP SseMoveP SseVecP SortNetP SseIntP SseEmulP SseBuildP SseMaskP SseArithP SseNativeP SseFloatRedP SseVecMain AvxMoveP AvxVecP AvxBuildP AvxShuffleP AvxMaskP AvxArithP AvxNativeP.
From Verif.Props Require Import SimdArrayProps.

Lemma C13_avx_min_max_main :
  forall avx2 e n (t : sa (elt e)), is_integer e = true -> wf (avx_widths_of avx2 e) n t ->
    exists lo hi, reduce (avx_min e) (e_min e) t = Some lo /\ reduce (avx_max e) (e_max e) t = Some hi /\
      In lo (to_list t) /\ In hi (to_list t) /\
      forall x, In x (to_list t) -> e_val e lo <= e_val e x <= e_val e hi.
Proof.
  intros avx2 e n t He W.
  destruct (C13_reduce _ _ (e_min e) (avx_min e) n t (abuild_widths avx2 e) (avx_min_ok avx2 e He) (e_min_assoc e He) (e_min_comm e He) W) as [lo [A B]].
  destruct (C13_reduce _ _ (e_max e) (avx_max e) n t (abuild_widths avx2 e) (avx_max_ok avx2 e He) (e_max_assoc e He) (e_max_comm e He) W) as [hi [C D]].
  apply red_min in B; auto. apply red_max in D; auto.
  exists lo, hi. repeat split; auto; try tauto; [apply B|apply D]; auto.
Qed.

Lemma C13_avx_sum_product_main :
  forall avx2 e n (t : sa (elt e)), is_integer e = true -> wf (avx_widths_of avx2 e) n t ->
    reduce (avx_sum e) wadd t = Some (e_of e (fold_right Z.add 0 (map (e_val e) (to_list t)))) /\
    reduce (avx_product e) wmul t = Some (e_of e (fold_right Z.mul 1 (map (e_val e) (to_list t)))).
Proof.
  intros avx2 e n t He W.
  destruct (C13_reduce _ _ wadd (avx_sum e) n t (abuild_widths avx2 e) (avx_sum_ok avx2 e He) wadd_assoc wadd_comm W) as [s [A B]].
  destruct (C13_reduce _ _ wmul (avx_product e) n t (abuild_widths avx2 e) (avx_product_ok avx2 e He) wmul_assoc wmul_comm W) as [p [C D]].
  apply red_sum in B. apply red_prod in D. subst. auto.
Qed.

Lemma C13_avx_float_min_max_main :
  forall e (xs : list (elt e)), is_integer e = false -> length xs = (32 / esize e)%nat ->
    (forall x, In x xs -> is_NaN x = false) ->
    least float_le xs (y_min_all e (ypack xs)) /\ greatest float_le xs (y_max_all e (ypack xs)).
Proof.
  intros e xs He L N. assert (N' : forall x, In x xs -> nn x) by (intros x Hx; unfold nn; rewrite <- nan_elt by auto; now apply N).
  split; [apply lst_least|apply grt_greatest]; auto; [now apply y_fmin_lst|now apply y_fmax_grt].
Qed.

Lemma C13_avx_float_sum_order_main :
  (forall (op : word 4 -> word 4 -> word 4) x0 x1 x2 x3 x4 x5 x6 x7, y_reduce_ps op (ypack [x0; x1; x2; x3; x4; x5; x6; x7]) =
     op (op (op x0 x4) (op x2 x6)) (op (op x1 x5) (op x3 x7))) /\
  (forall (op : word 8 -> word 8 -> word 8) x0 x1 x2 x3, y_reduce_pd op (ypack [x0; x1; x2; x3]) = op (op x0 x2) (op x1 x3)).
Proof.
  split; [exact y_reduce_ps_order|exact y_reduce_pd_order].
Qed.

Lemma C14_avx_masked_min_max_main :
  forall limits avx2 ptest hw e n (t : sa (elt e)) (k : sa bool), is_integer e = true ->
    wf (avx_widths_of avx2 e) n t -> wf (avx_widths_of avx2 e) n k -> (exists i, znth false (to_list k) i = true) ->
    let sel := select_spec (to_list k) (to_list t) in
    exists lo hi,
      reduce_masked (avx_mask_ops ptest hw e) (avx_min_masked limits e) (e_min e) t k = Some lo /\
      reduce_masked (avx_mask_ops ptest hw e) (avx_max_masked limits e) (e_max e) t k = Some hi /\
      In lo sel /\ In hi sel /\ forall x, In x sel -> e_val e lo <= e_val e x <= e_val e hi.
Proof.
  intros limits avx2 ptest hw e n t k He W Wk Hk sel.
  destruct (C14_reduce_masked _ _ _ (e_min e) (avx_min_masked limits e) n t k (abuild_widths avx2 e) (avx_masks ptest hw avx2 e) (avx_min_masked_ok limits avx2 e He) (e_min_assoc e He) W Wk Hk) as [lo [A B]].
  destruct (C14_reduce_masked _ _ _ (e_max e) (avx_max_masked limits e) n t k (abuild_widths avx2 e) (avx_masks ptest hw avx2 e) (avx_max_masked_ok limits avx2 e He) (e_max_assoc e He) W Wk Hk) as [hi [C D]].
  apply red_min in B; auto. apply red_max in D; auto.
  exists lo, hi. repeat split; auto; try tauto; [apply B|apply D]; auto.
Qed.

Lemma C14_avx_masked_sum_product_main :
  forall avx2 ptest hw e n (t : sa (elt e)) (k : sa bool), is_integer e = true ->
    wf (avx_widths_of avx2 e) n t -> wf (avx_widths_of avx2 e) n k -> (exists i, znth false (to_list k) i = true) ->
    let sel := map (e_val e) (select_spec (to_list k) (to_list t)) in
    reduce_masked (avx_mask_ops ptest hw e) (avx_sum_masked e) wadd t k = Some (e_of e (fold_right Z.add 0 sel)) /\
    reduce_masked (avx_mask_ops ptest hw e) (avx_product_masked e) wmul t k = Some (e_of e (fold_right Z.mul 1 sel)).
Proof.
  intros avx2 ptest hw e n t k He W Wk Hk sel.
  destruct (C14_reduce_masked _ _ _ wadd (avx_sum_masked e) n t k (abuild_widths avx2 e) (avx_masks ptest hw avx2 e) (avx_sum_masked_ok avx2 e He) wadd_assoc W Wk Hk) as [lo [A B]].
  destruct (C14_reduce_masked _ _ _ wmul (avx_product_masked e) n t k (abuild_widths avx2 e) (avx_masks ptest hw avx2 e) (avx_product_masked_ok avx2 e He) wmul_assoc W Wk Hk) as [hi [C D]].
  apply red_sum in B. apply red_prod in D. subst. auto.
Qed.

Lemma C14_avx_float_min_masked_partial_main :
  forall e (xs : list (elt e)) m, is_integer e = false -> length xs = (32 / esize e)%nat -> length m = length xs ->
    select_spec m xs <> [] -> (forall x, In x (select_spec m xs) -> is_NaN x = false /\ float_le x (largest_finite _) = true) ->
    least float_le (select_spec m xs) (y_min_masked true e (ypack xs) (ymask_reg (esize e) m)).
Proof.
  intros e xs m He L Lm NE H. apply min_padded_ok with (p := pad_max true e); auto.
  - intros x Hx. now apply H.
  - now apply pad_max_nn.
  - apply y_fmin_masked_lst; auto. intros x Hx. now apply H.
  - pose proof (fmax_nn e He) as [_ Q]. cbn [pad_max]. lia.
  - intros x Hx. now apply H.
Qed.

Lemma C14_avx_float_max_masked_partial_main :
  forall e (xs : list (elt e)) m, is_integer e = false -> length xs = (32 / esize e)%nat -> length m = length xs ->
    (forall x, In x (select_spec m xs) -> is_NaN x = false) ->
    (exists x, In x (select_spec m xs) /\ float_le (smallest_normal _) x = true) ->
    greatest float_le (select_spec m xs) (y_max_masked true e (ypack xs) (ymask_reg (esize e) m)).
Proof.
  intros e xs m He L Lm N H. apply max_padded_ok with (p := pad_min true e); auto.
  - now apply pad_min_nn.
  - now apply y_fmax_masked_grt.
  - pose proof (fmin_nn e He) as [_ Q]. cbn [pad_min]. lia.
Qed.

Lemma lt_not_nan_l {w} (x y : word w) : float_lt x y = true -> is_NaN x = false.
Proof. unfold float_lt, ordered. intros H. apply andb_prop in H. destruct H as [H _]. apply andb_prop in H. destruct H as [H _]. now destruct (is_NaN x). Qed.
Lemma lt_not_nan_r {w} (x y : word w) : float_lt x y = true -> is_NaN y = false.
Proof. unfold float_lt, ordered. intros H. apply andb_prop in H. destruct H as [H _]. apply andb_prop in H. destruct H as [_ H]. now destruct (is_NaN y). Qed.

Lemma C14_avx_float_masked_refuted_main :
  forall e (xs : list (elt e)) m, is_integer e = false -> length xs = (32 / esize e)%nat -> length m = length xs -> In false m ->
    ((forall x, In x (select_spec m xs) -> float_lt (largest_finite _) x = true) ->
      y_min_masked true e (ypack xs) (ymask_reg (esize e) m) = largest_finite _) /\
    ((forall x, In x (select_spec m xs) -> float_lt x (smallest_normal _) = true) ->
      y_max_masked true e (ypack xs) (ymask_reg (esize e) m) = smallest_normal _).
Proof.
  intros e xs m He L Lm F. split; intros H.
  - assert (N : forall x, In x (select_spec m xs) -> is_NaN x = false) by (intros x Hx; apply (lt_not_nan_r (largest_finite _)), H, Hx).
    refine (min_padded_wrong e m xs (pad_max true e) _ He Lm N (pad_max_nn true e He) _ F H). now apply y_fmin_masked_lst.
  - assert (N : forall x, In x (select_spec m xs) -> is_NaN x = false) by (intros x Hx; apply (lt_not_nan_l x (smallest_normal _)), H, Hx).
    refine (max_padded_wrong e m xs (pad_min true e) _ He Lm N (pad_min_nn true e He) _ F H). now apply y_fmax_masked_grt.
Qed.

Lemma C14_float_masked_without_limits_refuted_main :
  forall e m, is_integer e = false -> In false m ->
    (forall xs : list (elt e), length xs = (32 / esize e)%nat -> length m = length xs ->
      ((forall x, In x (select_spec m xs) -> float_lt (w0 _) x = true) -> y_min_masked false e (ypack xs) (ymask_reg (esize e) m) = w0 _) /\
      ((forall x, In x (select_spec m xs) -> float_lt x (w0 _) = true) -> y_max_masked false e (ypack xs) (ymask_reg (esize e) m) = w0 _)) /\
    (forall xs : list (elt e), length xs = (16 / esize e)%nat -> length m = length xs ->
      ((forall x, In x (select_spec m xs) -> float_lt (w0 _) x = true) -> v_min_masked_default e (pack xs) (mask_reg (esize e) m) = w0 _) /\
      ((forall x, In x (select_spec m xs) -> float_lt x (w0 _) = true) -> v_max_masked_default e (pack xs) (mask_reg (esize e) m) = w0 _)).
Proof.
  intros e m He F. split; intros xs L Lm; split; intros H.
  - assert (N : forall x, In x (select_spec m xs) -> is_NaN x = false) by (intros x Hx; apply (lt_not_nan_r (w0 (esize e))), H, Hx).
    refine (min_padded_wrong e m xs (w0 _) _ He Lm N (zero_nn e He) _ F H). now apply (y_fmin_masked_lst false).
  - assert (N : forall x, In x (select_spec m xs) -> is_NaN x = false) by (intros x Hx; apply (lt_not_nan_l x (w0 (esize e))), H, Hx).
    refine (max_padded_wrong e m xs (w0 _) _ He Lm N (zero_nn e He) _ F H). now apply (y_fmax_masked_grt false).
  - assert (N : forall x, In x (select_spec m xs) -> is_NaN x = false) by (intros x Hx; apply (lt_not_nan_r (w0 (esize e))), H, Hx).
    refine (min_padded_wrong e m xs (w0 _) _ He Lm N (zero_nn e He) _ F H). now apply v_fmin_default_lst.
  - assert (N : forall x, In x (select_spec m xs) -> is_NaN x = false) by (intros x Hx; apply (lt_not_nan_l x (w0 (esize e))), H, Hx).
    refine (max_padded_wrong e m xs (w0 _) _ He Lm N (zero_nn e He) _ F H). now apply v_fmax_default_grt.
Qed.

Section Strict.
  Variables (e : etype) (m : list bool) (xs : list (elt e)) (p r : elt e).
  Hypothesis He : is_integer e = false.
  Hypothesis Lm : length m = length xs.
  Hypothesis N : forall x, In x (select_spec m xs) -> is_NaN x = false.
  Hypothesis Np : nn p.
  Let padded := masked_update_spec m xs (repeat p (length xs)).
  Lemma min_padded_strict : lst padded r -> (exists x, In x (select_spec m xs) /\ float_lt x p = true) -> least float_le (select_spec m xs) r.
  Proof.
    intros [I H] [s [Is Hs]]. apply lst_least; auto. split; [|intros x Hx; apply H, in_select; auto].
    apply in_update in I; auto. destruct I as [I|I]; auto. exfalso. rewrite I in *.
    destruct (H s) as [Ns Ks]; [apply in_select; auto|]. rewrite <- flt_ok, flt_iff in Hs by (auto; now apply float_fp). lia.
  Qed.
  Lemma max_padded_strict : grt padded r -> (exists x, In x (select_spec m xs) /\ float_lt p x = true) -> greatest float_le (select_spec m xs) r.
  Proof.
    intros [I H] [s [Is Hs]]. apply grt_greatest; auto. split; [|intros x Hx; apply H, in_select; auto].
    apply in_update in I; auto. destruct I as [I|I]; auto. exfalso. rewrite I in *.
    destruct (H s) as [Ns Ks]; [apply in_select; auto|]. rewrite <- flt_ok, flt_iff in Hs by (auto; now apply float_fp). lia.
  Qed.
End Strict.

Lemma C14_float_masked_without_limits_partial_main :
  forall e m, is_integer e = false ->
    (forall xs : list (elt e), length xs = (32 / esize e)%nat -> length m = length xs ->
      (forall x, In x (select_spec m xs) -> is_NaN x = false) ->
      ((exists x, In x (select_spec m xs) /\ float_lt x (w0 _) = true) ->
         least float_le (select_spec m xs) (y_min_masked false e (ypack xs) (ymask_reg (esize e) m))) /\
      ((exists x, In x (select_spec m xs) /\ float_lt (w0 _) x = true) ->
         greatest float_le (select_spec m xs) (y_max_masked false e (ypack xs) (ymask_reg (esize e) m)))) /\
    (forall xs : list (elt e), length xs = (16 / esize e)%nat -> length m = length xs ->
      (forall x, In x (select_spec m xs) -> is_NaN x = false) ->
      ((exists x, In x (select_spec m xs) /\ float_lt x (w0 _) = true) ->
         least float_le (select_spec m xs) (v_min_masked_default e (pack xs) (mask_reg (esize e) m))) /\
      ((exists x, In x (select_spec m xs) /\ float_lt (w0 _) x = true) ->
         greatest float_le (select_spec m xs) (v_max_masked_default e (pack xs) (mask_reg (esize e) m)))).
Proof.
  intros e m He. split; intros xs L Lm N; split; intros H.
  - refine (min_padded_strict e m xs (w0 _) _ He Lm (zero_nn e He) _ H). now apply (y_fmin_masked_lst false).
  - refine (max_padded_strict e m xs (w0 _) _ He Lm (zero_nn e He) _ H). now apply (y_fmax_masked_grt false).
  - refine (min_padded_strict e m xs (w0 _) _ He Lm (zero_nn e He) _ H). now apply v_fmin_default_lst.
  - refine (max_padded_strict e m xs (w0 _) _ He Lm (zero_nn e He) _ H). now apply v_fmax_default_grt.
Qed.

Lemma C15_avx_masked_assign_main :
  forall avx2 e n (x v : sa (elt e)) (k : sa bool), let W := avx_widths_of avx2 e in
    wf W n x -> wf W n v -> wf W n k ->
    exists r, assign (avx_assign e) x v k = Some r /\ wf W n r /\
      to_list r = masked_update_spec (to_list k) (to_list v) (to_list x).
Proof.
  intros avx2 e n x v k W. apply C15_masked_assign; [apply abuild_widths|apply avx_assign_native].
Qed.

Lemma C15_avx_iif_main :
  forall avx2 e n (k : sa bool) (a b : sa (elt e)), let W := avx_widths_of avx2 e in
    wf W n k -> wf W n a -> wf W n b ->
    exists r, iif (avx_assign e) k a b = Some r /\ wf W n r /\
      to_list r = map3 (fun (m : bool) x y => if m then x else y) (to_list k) (to_list a) (to_list b).
Proof.
  intros avx2 e n k a b W. apply C15_iif; [apply abuild_widths|apply avx_assign_native].
Qed.

Lemma C15_avx_masked_op_assign_main :
  forall avx2 e (f : elt e -> elt e -> elt e) n (x y : sa (elt e)) (k : sa bool), let W := avx_widths_of avx2 e in
    wf W n x -> wf W n y -> wf W n k ->
    exists r, masked_op_assign (avx_assign e) f x y k = Some r /\ wf W n r /\
      to_list r = map3 (fun (b : bool) a c => if b then f a c else a) (to_list k) (to_list x) (to_list y).
Proof.
  intros avx2 e f n x y k W. apply C15_masked_op_assign; [apply abuild_widths|apply avx_assign_native].
Qed.

Lemma C15_avx_masked_increment_main :
  forall avx2 e n (x : sa (elt e)) (k : sa bool), is_integer e = true -> let W := avx_widths_of avx2 e in
    wf W n x -> wf W n k ->
    (exists r, masked_increment (avx_zero_inverted e) wadd (mkw _ 1) x k = Some r /\ wf W n r /\
      to_list r = map2 (fun (b : bool) a => if b then e_of e (e_val e a + 1) else a) (to_list k) (to_list x)) /\
    (exists r, masked_increment (avx_zero_inverted e) wsub (mkw _ 1) x k = Some r /\ wf W n r /\
      to_list r = map2 (fun (b : bool) a => if b then e_of e (e_val e a - 1) else a) (to_list k) (to_list x)).
Proof.
  intros avx2 e n x k He W0 W Wk. split.
  - destruct (C15_masked_increment _ _ (w0 _) (avx_zero_inverted e) wadd (mkw _ 1) n x k (abuild_widths avx2 e) (avx_zero_inverted_native avx2 e)) as [r [A [B C]]]; auto.
    { intros a. rewrite wadd_comm. apply wadd_0_l. }
    exists r. repeat split; auto. refine (eq_trans C _). apply map2_ext. intros b a. destruct b; auto. apply (add_one e).
  - destruct (C15_masked_increment _ _ (w0 _) (avx_zero_inverted e) wsub (mkw _ 1) n x k (abuild_widths avx2 e) (avx_zero_inverted_native avx2 e)) as [r [A [B C]]]; auto.
    { apply wsub_0_r. }
    exists r. repeat split; auto. refine (eq_trans C _). apply map2_ext. intros b a. destruct b; auto. apply (sub_one e).
Qed.

Lemma y_set_qnan_ok e (xs : list (elt e)) m : length xs = (32 / esize e)%nat -> length m = length xs ->
  y_set_qnan (ypack xs) (ymask_reg (esize e) m) = ypack (map2 (fun x b => wor x (wmask (esize e) b)) xs m).
Proof.
  intros L Lm. pose proof (esize_ok e) as Hw.
  apply (ymap2_with_mask (w := esize e) Hw mm_or (fun x b => wor x (wmask (esize e) b)) xs m); auto.
  intros l k Ll Lk. unfold mask_reg. rewrite or_pack by (rewrite map_length; auto). f_equal.
  clear Ll. revert k Lk. induction l as [|x l IH]; intros [|b k] Lk; cbn in *; try discriminate Lk; auto. f_equal. apply IH. lia.
Qed.
Lemma wor_mask w b (x : word w) : wor x (wmask w b) = if b then wmask w true else x.
Proof.
  apply word_ext. unfold wor. rewrite uval_mkw, uval_wmask. pose proof (uval_range x) as R. unfold modulus in *. destruct b.
  - rewrite uval_wmask. replace (Z.lor (uval x) (Z.ones (bits w))) with (Z.ones (bits w)).
    + rewrite Z.ones_equiv. apply Z.mod_small. lia.
    + apply Z.bits_inj'. intros i Hi. rewrite Z.lor_spec. destruct (Z.ltb_spec i (bits w)).
      * rewrite Z.ones_spec_low by lia. now rewrite orb_true_r.
      * rewrite Z.ones_spec_high by (unfold bits in *; lia). rewrite orb_false_r. symmetry.
        destruct (Z.eq_dec (uval x) 0) as [->|]; [apply Z.bits_0|]. apply Z.bits_above_log2; [lia|].
        apply Z.lt_le_trans with (bits w); auto. apply Z.log2_lt_pow2; lia.
  - rewrite Z.lor_0_r. apply Z.mod_small. exact R.
Qed.

Lemma C15_avx_vector_set_main :
  forall e (xs : list (elt e)) m, length xs = (32 / esize e)%nat -> length m = length xs ->
    let R := ypack xs in let K := ymask_reg (esize e) m in
    y_set_zero R K = ypack (map2 (fun x (b : bool) => if b then w0 (esize e) else x) xs m) /\
    y_set_zero_inverted R K = ypack (map2 (fun x (b : bool) => if b then x else w0 (esize e)) xs m) /\
    (is_integer e = false -> exists ys : list (elt e), y_set_qnan R K = ypack ys /\ length ys = length xs /\
       forall i, (i < length xs)%nat ->
         if nth i m false then is_NaN (nth i ys (w0 _)) = true else nth i ys (w0 _) = nth i xs (w0 _)).
Proof.
  intros e xs m L Lm R K. unfold R, K. split; [now apply y_set_zero_ok|split; [now apply y_set_zero_inverted_ok|]].
  intros He. eexists. split; [now apply y_set_qnan_ok|]. split; [rewrite map2_length, Lm; apply Nat.min_id|].
  intros i Hi. unfold elt in *. rewrite (nth_map2 _ (w0 _) false) by lia. destruct (nth i m false).
  - rewrite wor_mask. destruct e; try discriminate He; reflexivity.
  - now rewrite wor_mask.
Qed.

Lemma C16_avx_mask_queries_main :
  forall avx2 ptest hw e n (m : sa bool), wf (avx_widths_of avx2 e) n m ->
    let K := avx_mask_ops ptest hw e in
    (is_full K m = true <-> forall b, In b (to_list m) -> b = true) /\
    (is_empty K m = true <-> forall b, In b (to_list m) -> b = false) /\
    (is_not_empty K m = true <-> exists b, In b (to_list m) /\ b = true) /\
    (is_mix K m = true <-> In true (to_list m) /\ In false (to_list m)) /\
    SimdArrayOps.count K m = count_spec (to_list m) /\
    (In true (to_list m) -> first_one_spec (to_list m) (first_one K m)).
Proof.
  intros avx2 ptest hw e n m W. apply (C16_mask_queries (avx_widths_of avx2 e) _ n); auto. apply abuild_widths. apply avx_masks.
Qed.

Lemma C16_avx_mask_to_int_main :
  forall avx2 ptest hw e n (m m' : sa bool), wf (avx_widths_of avx2 e) n m -> wf (avx_widths_of avx2 e) n m' ->
    let K := avx_mask_ops ptest hw e in
    ((n <= 31)%nat -> exists v, to_int K m = Some v /\ 0 <= v < 2 ^ Z.of_nat n /\
      forall i, 0 <= i < Z.of_nat n -> Z.testbit v i = znth false (to_list m) i) /\
    exists b, mask_eq K m m' = Some b /\ mask_neq K m m' = Some (negb b) /\ (b = true <-> to_list m = to_list m').
Proof.
  intros avx2 ptest hw e n m m' W W' K. split.
  - intros Hn. apply (C16_mask_to_int (avx_widths_of avx2 e)); auto. apply abuild_widths. apply avx_masks.
  - apply (C16_mask_equality (avx_widths_of avx2 e) K n); auto. apply abuild_widths. apply avx_masks.
Qed.

Lemma C16_avx_native_mask_main :
  forall hw e m, length m = (32 / esize e)%nat ->
    let w := esize e in let k := ymask_reg w m in
    (ym_full w k = true <-> forall b, In b m -> b = true) /\
    (ym_empty w k = true <-> forall b, In b m -> b = false) /\
    (ym_not_empty w k = true <-> In true m) /\
    (ym_mix w k = true <-> In true m /\ In false m) /\
    ym_count hw w k = count_spec m /\
    ym_to_int w k = to_int_spec m /\
    match ym_first w k with
    | Some i => 0 <= i < Z.of_nat (length m) /\ first_one_spec m i
    | None => forall b, In b m -> b = false
    end.
Proof.
  intros hw e m L w k. unfold k. pose proof (esize_ok e : width_ok w) as Hw.
  assert (Q : ym_not_empty w (ymask_reg w m) = negb (forallb negb m)).
  { unfold ym_not_empty. f_equal. exact (ym_empty_ok w m Hw L). }
  rewrite Q, ym_full_ok, ym_empty_ok, ym_mix_ok, ym_count_ok, ym_to_int_ok by auto.
  rewrite forallb_all, forallb_none, not_none, andb_true_iff, not_none, not_all.
  repeat (split; [easy|]). apply ym_first_ok; auto.
Qed.

Lemma C17_avx_mask_entries_main :
  forall e m (gen : Z -> bool) (b : bool) i, length m = (32 / esize e)%nat -> 0 <= i < Z.of_nat (32 / esize e) ->
    ym_broadcast b = ymask_reg (esize e) (repeat b (32 / esize e)) /\
    ym_generate (esize e) gen = ymask_reg (esize e) (tab (32 / esize e) gen) /\
    ym_get (esize e) (ymask_reg (esize e) m) i = znth false m i /\
    ym_set (esize e) (ymask_reg (esize e) m) i b = ymask_reg (esize e) (tab (32 / esize e) (fun j => if j =? i then b else znth false m j)).
Proof.
  intros e m gen b i L Hi. pose proof (esize_ok e) as Hw. repeat split.
  - now apply ym_broadcast_ok.
  - apply ym_generate_ok.
  - now apply ym_get_ok.
  - rewrite ym_set_ok by auto. f_equal. rewrite (list_set_tab false) by lia. now rewrite L.
Qed.

Lemma C17_avx_mask_logic_main :
  forall e a b, length a = (32 / esize e)%nat -> length b = (32 / esize e)%nat ->
    let K := ymask_reg (esize e) in
    ym_not (K a) = K (map negb a) /\ ym_and (K a) (K b) = K (map2 andb a b) /\
    ym_or (K a) (K b) = K (map2 orb a b) /\ ym_xor (K a) (K b) = K (map2 xorb a b).
Proof.
  intros e a b La Lb K. unfold K. rewrite ym_not_ok, ym_and_ok, ym_or_ok, ym_xor_ok by (auto; try apply esize_ok; congruence). auto.
Qed.

Lemma C17_avx_mask_shifted_main :
  forall e m k, length m = (32 / esize e)%nat -> - 2 ^ 31 <= k * Z.of_nat (esize e) < 2 ^ 31 ->
    ym_shifted (repeat 0 16) (esize e) (ymask_reg (esize e) m) k = Some (ymask_reg (esize e) (shift_spec false m k)).
Proof.
  intros e m k L H. apply ym_shifted_ok; auto. apply esize_ok.
Qed.

Lemma C17_avx_mask_shifted_undefined_refuted_main :
  forall undef e m k, length undef = 16%nat -> length m = (32 / esize e)%nat -> 16 <= k * Z.of_nat (esize e) < 32 ->
    exists r, ym_shifted undef (esize e) (ymask_reg (esize e) m) k = Some r /\ hi128 r = undef.
Proof.
  intros undef e m k Lu L Hk. unfold ym_shifted. cbv zeta.
  replace (_ || _) with false by (symmetry; apply orb_false_iff; split; [apply Z.ltb_ge|apply Z.leb_gt]; lia).
  replace (_ =? 0) with false by (symmetry; apply Z.eqb_neq; lia).
  replace (_ && _) with true by (symmetry; apply andb_true_iff; split; apply Z.leb_le; lia).
  eexists. split; [reflexivity|]. unfold avx_shift_bytes. replace (16 <=? _) with true by (symmetry; apply Z.leb_le; lia). reflexivity.
Qed.

Lemma C18_avx_mask_load_store_main :
  forall e m, length m = (32 / esize e)%nat ->
    ym_store (esize e) (ymask_reg (esize e) m) = map (fun b : bool => if b then 1 else 0) m /\
    ym_load (esize e) (map (fun b : bool => if b then 1 else 0) m) = ymask_reg (esize e) m.
Proof.
  intros e m L. pose proof (ym_store_ok _ m (esize_ok e) L) as S. pose proof (ym_load_ok _ m (esize_ok e) L) as R. split; assumption.
Qed.

Lemma C19_avx_mask_cast_main :
  (forall e e' m, length m = (32 / esize e)%nat ->
    ymask_cast (repeat 0 16) (32 / esize e) (32 / esize e') (ymask_reg (esize e) m) = Some (ymask_reg (esize e') (cast_spec (32 / esize e') m))) /\
  (forall e e' m, length m = (32 / esize e)%nat -> esize e <> 2%nat -> esize e' <> 8%nat ->
    ymask_cast_128 (32 / esize e) (16 / esize e') (ymask_reg (esize e) m) = Some (mask_reg (esize e') (cast_spec (16 / esize e') m))) /\
  (forall e e' m, length m = (16 / esize e)%nat -> esize e <> 8%nat -> esize e' <> 2%nat ->
    mask_cast_256 (repeat 0 16) (16 / esize e) (32 / esize e') (mask_reg (esize e) m) = Some (ymask_reg (esize e') (cast_spec (32 / esize e') m))).
Proof.
  split; [|split].
  - intros e e' m L. pose proof (ymask_cast_ok (32 / esize e) (32 / esize e') m) as H.
    destruct e, e'; apply H; auto; cbn; auto.
  - intros e e' m L H1 H2. pose proof (ymask_cast_128_ok (32 / esize e) (16 / esize e') m) as H.
    destruct e, e'; try (now destruct H1); try (now destruct H2); apply H; auto; cbn; auto.
  - intros e e' m L H1 H2. pose proof (mask_cast_256_ok (16 / esize e) (32 / esize e') m) as H.
    destruct e, e'; try (now destruct H1); try (now destruct H2); apply H; auto; cbn; auto.
Qed.

Lemma C19_avx_mask_cast_undefined_refuted_main :
  forall undef w m, length m = (32 / w)%nat -> w = 4%nat \/ w = 8%nat -> length undef = 16%nat ->
    exists r, ymask_cast undef (32 / w) 16 (ymask_reg w m) = Some r /\ hi128 r = undef.
Proof.
  intros undef w m L [->| ->] Lu; eexists; (split; [reflexivity|reflexivity]).
Qed.

Lemma C21_avx_compare_main :
  forall gcc e (xs ys : list (elt e)), is_integer e = true -> length xs = (32 / esize e)%nat -> length ys = (32 / esize e)%nat ->
    let R := ypack xs in let S := ypack ys in let val := e_val e in
    let K f := ymask_reg (esize e) (map2 f xs ys) in
    y_eq e R S = K (fun a b => val a =? val b) /\ y_ne e R S = K (fun a b => negb (val a =? val b)) /\
    y_lt e R S = K (fun a b => val a <? val b) /\ y_le e R S = K (fun a b => val a <=? val b) /\
    y_gt gcc e R S = K (fun a b => val b <? val a) /\ y_ge gcc e R S = K (fun a b => val b <=? val a).
Proof.
  intros gcc e xs ys He Hx Hy. exact (y_compare_int e xs ys Hx Hy gcc He).
Qed.

Lemma C22_avx_arithmetic_main :
  forall e (xs ys : list (elt e)), is_integer e = true -> length xs = (32 / esize e)%nat -> length ys = (32 / esize e)%nat ->
    let val := e_val e in
    y_add e (ypack xs) (ypack ys) = ypack (map2 (fun a b => e_of e (val a + val b)) xs ys) /\
    y_sub e (ypack xs) (ypack ys) = ypack (map2 (fun a b => e_of e (val a - val b)) xs ys) /\
    y_mul e (ypack xs) (ypack ys) = ypack (map2 (fun a b => e_of e (val a * val b)) xs ys) /\
    y_neg e (ypack xs) = ypack (map (fun a => e_of e (- val a)) xs) /\
    y_increment e (ypack xs) = ypack (map (fun a => e_of e (val a + 1)) xs) /\
    y_decrement e (ypack xs) = ypack (map (fun a => e_of e (val a - 1)) xs).
Proof.
  intros e xs ys He Hx Hy val. unfold val. repeat split.
  - rewrite y_add_ok by auto. f_equal. apply map2_ext. intros. apply add_val.
  - rewrite y_sub_ok by auto. f_equal. apply map2_ext. intros. apply sub_val.
  - rewrite y_mul_ok by auto. f_equal. apply map2_ext. intros. apply mul_val.
  - rewrite y_neg_int by auto. f_equal. apply map_ext. intros. apply neg_val.
  - unfold y_increment. rewrite (set1_ypack _ _ (esize_ok e)), y_add_ok by (rewrite ?repeat_length; auto). f_equal.
    rewrite map2_repeat_r by auto. apply map_ext. intros. apply add_one.
  - unfold y_decrement. rewrite (set1_ypack _ _ (esize_ok e)), y_sub_ok by (rewrite ?repeat_length; auto). f_equal.
    rewrite map2_repeat_r by auto. apply map_ext. intros. apply sub_one.
Qed.

Lemma C22_avx_min_max_main :
  forall e (xs ys : list (elt e)), is_integer e = true -> length xs = (32 / esize e)%nat -> length ys = (32 / esize e)%nat ->
    map (e_val e) (ylanes (esize e) (y_min e (ypack xs) (ypack ys))) = map2 Z.min (map (e_val e) xs) (map (e_val e) ys) /\
    map (e_val e) (ylanes (esize e) (y_max e (ypack xs) (ypack ys))) = map2 Z.max (map (e_val e) xs) (map (e_val e) ys).
Proof.
  intros e xs ys He Hx Hy. rewrite y_min_ok, y_max_ok by auto.
  rewrite !ylanes_ypack by (try apply esize_ok; rewrite map2_length; unfold elt in *; lia). rewrite !map_map2, !map2_map. split; apply map2_ext; intros.
  - now apply min_val.
  - now apply max_val.
Qed.

Lemma sll_val e k (a : elt e) : 0 <= k -> sll_word k a = e_of e (e_val e a * 2 ^ k).
Proof.
  intros Hk. unfold sll_word. destruct (Z.leb_spec (bits (esize e)) k).
  - apply word_ext. unfold e_of. rewrite uval_w0, uval_mkw. symmetry. apply Z.mod_divide; [pose proof (modulus_pos (esize e)); lia|].
    apply Z.divide_mul_r. unfold modulus. exists (2 ^ (k - bits (esize e))). rewrite <- Z.pow_add_r by (unfold bits in *; lia). f_equal. lia.
  - apply mkw_eq. rewrite <- (val_mod e a). apply Zmult_mod_idemp_l.
Qed.
Lemma srl_val w k (a : word w) : 0 <= k -> srl_word k a = mkw w (uval a / 2 ^ k).
Proof.
  intros Hk. unfold srl_word. destruct (Z.leb_spec (bits w) k); auto. apply word_ext. rewrite uval_w0, uval_mkw.
  rewrite Z.div_small; [symmetry; apply Z.mod_0_l; pose proof (modulus_pos w); lia|].
  pose proof (uval_range a). split; [lia|]. apply Z.lt_le_trans with (modulus w); [lia|]. unfold modulus. apply Z.pow_le_mono_r; lia.
Qed.
Lemma sra_val w k (a : word w) : (0 < w)%nat -> 0 <= k -> sra_word k a = mkw w (sval a / 2 ^ k).
Proof.
  intros Hw Hk. unfold sra_word. destruct (Z.leb_spec (bits w) k) as [H|H]; auto. f_equal.
  assert (B : 0 < bits w) by (unfold bits; lia).
  assert (R : - 2 ^ (bits w - 1) <= sval a < 2 ^ (bits w - 1)).
  { pose proof (sval_range a Hw) as R. unfold modulus in R. replace (2 ^ bits w / 2) with (2 ^ (bits w - 1)) in R; auto.
    apply Z.div_unique_exact; [lia|]. rewrite <- Z.pow_succ_r by lia. f_equal. lia. }
  assert (G : forall j, bits w - 1 <= j -> sval a / 2 ^ j = if sval a <? 0 then -1 else 0).
  { intros j Hj. assert (P : 2 ^ (bits w - 1) <= 2 ^ j) by (apply Z.pow_le_mono_r; lia).
    destruct (Z.ltb_spec (sval a) 0).
    - symmetry. apply Z.div_unique with (sval a + 2 ^ j); lia.
    - apply Z.div_small. lia. }
  rewrite !G by lia. reflexivity.
Qed.

Lemma C22_avx_shift_main :
  forall e (xs : list (elt e)) k, is_integer e = true -> length xs = (32 / esize e)%nat -> 0 <= k < 2 ^ 31 ->
    y_shl e (ypack xs) k = ypack (map (fun a => e_of e (e_val e a * 2 ^ k)) xs) /\
    y_shr e (ypack xs) k = ypack (map (fun a => e_of e (e_val e a / 2 ^ k)) xs).
Proof.
  intros e xs k He Hx Hk. rewrite y_shl_ok, y_shr_ok by auto. rewrite Z.mod_small by lia. split; f_equal; apply map_ext; intros a.
  - apply sll_val. lia.
  - destruct e; try discriminate He; unfold e_of, e_val; (apply sra_val || apply srl_val); cbn; lia.
Qed.

Lemma collect_some {A B C} (f : A -> B -> option C) (g : A -> B -> C) : forall xs ys, (forall x y, In y ys -> f x y = Some (g x y)) ->
  collect (map2 f xs ys) = Some (map2 g xs ys).
Proof.
  induction xs as [|x xs IH]; intros [|y ys] H; cbn [map2 collect]; auto. rewrite H by (now left). rewrite IH by (intros; apply H; now right). reflexivity.
Qed.
Lemma map2_ext_in {A B C} (f g : A -> B -> C) : forall xs ys, (forall x y, In y ys -> f x y = g x y) -> map2 f xs ys = map2 g xs ys.
Proof. induction xs as [|x xs IH]; intros [|y ys] H; cbn; auto. f_equal; [apply H; now left|apply IH; intros; apply H; now right]. Qed.
Lemma small_nonneg w (x : word w) n : (0 < w)%nat -> 0 <= sval x < n -> uval x = sval x.
Proof.
  intros Hw H. rewrite <- (sval_mod x) at 1. apply Z.mod_small. pose proof (sval_range x Hw) as R. pose proof (modulus_pos w).
  assert (modulus w / 2 <= modulus w) by (apply Z.div_le_upper_bound; lia). lia.
Qed.

Lemma C22_avx_shift_vector_main :
  forall e (xs cs : list (elt e)), is_integer e = true -> length xs = (32 / esize e)%nat -> length cs = (32 / esize e)%nat ->
    (forall c, In c cs -> 0 <= e_val e c < 32) ->
    y_shlv e (ypack xs) (ypack cs) = Some (ypack (map2 (fun a c => e_of e (e_val e a * 2 ^ e_val e c)) xs cs)) /\
    y_shrv e (ypack xs) (ypack cs) = Some (ypack (map2 (fun a c => e_of e (e_val e a / 2 ^ e_val e c)) xs cs)).
Proof.
  intros e xs cs He Hx Hc R. destruct e; try discriminate He; unfold y_shlv, y_shrv, elt in *; cbn [esize] in *.
  1,2: rewrite !ylanes_ypack by (auto; exact (esize_ok Short)); split.
  1-4: match goal with |- option_map ypack (collect (map2 ?f _ _)) = Some (ypack (map2 ?g _ _)) => rewrite (collect_some f g); [reflexivity|] end;
    intros x y Hy; unfold int_shift, e_val, e_of; specialize (R y Hy); unfold e_val in R; cbn [esize] in *;
    (match goal with |- context [?x && ?z] => assert (T : x && z = true) by (apply andb_true_iff; destruct R as [R1 R2]; split; [apply Z.leb_le; exact R1|apply Z.ltb_lt; exact R2]); rewrite T end); reflexivity.
  all: assert (P : forall f, ymap2 (lift2 4 f) (ypack xs) (ypack cs) = ypack (map2 f xs cs))
    by (intros f; apply (ymap2_pack (w := 4) (esize_ok Int)); auto; intros; now apply lift2_pack);
    rewrite !P; split; do 2 f_equal; apply map2_ext_in; intros x y Hy;
    specialize (R y Hy); unfold e_val in *; cbn [esize] in *.
  - rewrite (small_nonneg 4 y 32) by (auto; lia). apply (sll_val Int (sval y) x). apply R.
  - rewrite (small_nonneg 4 y 32) by (auto; lia). apply (sra_val 4 (sval y) x); [lia|apply R].
  - apply (sll_val UInt (uval y) x). apply R.
  - apply (srl_val 4 (uval y) x). apply R.
Qed.

Lemma C22_avx_abs_main :
  forall e (xs : list (elt e)), is_integer e = true -> length xs = (32 / esize e)%nat ->
    y_abs e (ypack xs) = ypack (map (fun a => e_of e (Z.abs (e_val e a))) xs).
Proof.
  intros e xs He L. destruct e; try discriminate He; unfold y_abs, elt in *; cbn [esize] in *.
  1: apply (ymap1_pack (w := 2) (esize_ok Short)); auto; intros; apply (abs_epi_pack true 2); auto.
  2: apply (ymap1_pack (w := 4) (esize_ok Int)); auto; intros; apply (abs_epi_pack true 4); auto.
  all: f_equal; rewrite <- (map_id xs) at 1; apply map_ext; intros a; unfold e_val; rewrite Z.abs_eq by (exact (proj1 (uval_range a))); symmetry; apply (mkw_val UShort a) || apply (mkw_val UInt a).
Qed.

Lemma C22_avx_float_negate_main :
  forall e (xs : list (elt e)), is_integer e = false -> length xs = (32 / esize e)%nat ->
    exists ys : list (elt e), y_neg e (ypack xs) = ypack ys /\ map fvalue ys = map (fun x => - fvalue x) xs /\
      map sign_bit ys = map (fun x => negb (sign_bit x)) xs /\ map is_NaN ys = map is_NaN xs.
Proof.
  intros e xs He L. eexists. split; [now apply y_neg_fp|]. rewrite !map_map.
  repeat split; apply map_ext; intros x; now apply (neg_float_value (esize e) x (float_fp e He)).
Qed.

Lemma C39_avx_float_compare_main :
  forall gcc e (xs ys : list (elt e)), is_integer e = false -> length xs = (32 / esize e)%nat -> length ys = (32 / esize e)%nat ->
    let R := ypack xs in let S := ypack ys in let K f := ymask_reg (esize e) (map2 f xs ys) in
    y_eq e R S = K float_eq /\ y_ne e R S = K (fun a b => negb (float_eq a b)) /\
    y_lt e R S = K float_lt /\ y_le e R S = K float_le /\
    (gcc = true -> y_gt gcc e R S = K (fun a b => float_lt b a) /\ y_ge gcc e R S = K (fun a b => float_le b a)).
Proof.
  intros gcc e xs ys He Hx Hy R S K. pose proof (y_compare_fp e xs ys Hx Hy gcc He) as H. cbv zeta in H. destruct H as (H1 & H2 & H3 & H4 & H5 & H6).
  repeat (split; [assumption|]). intros ->. split; assumption.
Qed.

Lemma C39_avx_float_gt_refuted_main :
  forall e (xs ys : list (elt e)), is_integer e = false -> length xs = (32 / esize e)%nat -> length ys = (32 / esize e)%nat ->
    forall i, (i < 32 / esize e)%nat -> is_NaN (nth i xs (w0 _)) || is_NaN (nth i ys (w0 _)) = true ->
    nth i (ylanes (esize e) (y_gt false e (ypack xs) (ypack ys))) (w0 _) = wmask _ true /\
    nth i (ylanes (esize e) (y_ge false e (ypack xs) (ypack ys))) (w0 _) = wmask _ true /\
    float_lt (nth i ys (w0 _)) (nth i xs (w0 _)) = false /\ float_le (nth i ys (w0 _)) (nth i xs (w0 _)) = false.
Proof.
  intros e xs ys He Hx Hy i Hi N. pose proof (y_compare_fp e xs ys Hx Hy false He) as H. cbv zeta in H. destruct H as (_ & _ & _ & _ & H5 & H6).
  rewrite H5, H6. unfold ymask_reg. assert (Lw : forall f : elt e -> elt e -> bool, length (map (wmask (esize e)) (map2 f xs ys)) = (32 / esize e)%nat).
  { intros f. rewrite map_length, map2_length. unfold elt in *. lia. }
  assert (G : forall f : elt e -> elt e -> bool, nth i (ylanes (esize e) (ypack (map (wmask (esize e)) (map2 f xs ys)))) (w0 _) = wmask _ (f (nth i xs (w0 _)) (nth i ys (w0 _)))).
  { intros f. rewrite ylanes_ypack by (try apply esize_ok; apply Lw). rewrite (nth_indep _ (w0 _) (wmask (esize e) false)) by (rewrite Lw; exact Hi).
    rewrite map_nth. unfold elt in *. now rewrite (nth_map2 _ (w0 _) (w0 _)) by lia. }
  rewrite !G. unfold float_lt, float_le, ordered. apply orb_true_iff in N; unfold elt in *; destruct N as [N|N]; rewrite N; cbn [negb andb]; rewrite ?andb_false_r; cbn [negb andb]; auto 6.
Qed.

Lemma znth_in {A} (d : A) xs i : 0 <= i < Z.of_nat (length xs) -> In (znth d xs i) xs.
Proof. intros H. rewrite znth_nth_in by auto. apply nth_In. lia. Qed.

Lemma C49_min_max_index_main :
  forall e (xs : list (elt e)), is_integer e = true -> length xs = (32 / esize e)%nat ->
    (exists i, y_min_index e (ypack xs) = (ypack (repeat (znth (w0 _) xs i) (32 / esize e)), Some i) /\
      0 <= i < Z.of_nat (length xs) /\ (forall x, In x xs -> e_val e (znth (w0 _) xs i) <= e_val e x) /\
      forall j, 0 <= j < i -> e_val e (znth (w0 _) xs i) < e_val e (znth (w0 _) xs j)) /\
    (exists i, y_max_index e (ypack xs) = (ypack (repeat (znth (w0 _) xs i) (32 / esize e)), Some i) /\
      0 <= i < Z.of_nat (length xs) /\ (forall x, In x xs -> e_val e x <= e_val e (znth (w0 _) xs i)) /\
      forall j, 0 <= j < i -> e_val e (znth (w0 _) xs j) < e_val e (znth (w0 _) xs i)).
Proof.
  intros e xs He L. split.
  - pose proof (y_min_all_ok e He xs L) as R. destruct (red_min e xs _ He R) as [I M].
    destruct (first_at e xs _ He L I) as [i (F & Hi & E & Q)]. exists i. unfold y_min_index. cbv zeta. rewrite eq_bcast, F, E by auto.
    repeat split; auto; try tauto. intros j Hj. assert (Ij : In (znth (w0 _) xs j) xs) by (apply znth_in; unfold elt in *; lia).
    apply Z.le_neq. split; [now apply M|]. intros X. apply (val_inj e) in X; auto. apply (Q j Hj). congruence.
  - pose proof (y_max_all_ok e He xs L) as R. destruct (red_max e xs _ He R) as [I M].
    destruct (first_at e xs _ He L I) as [i (F & Hi & E & Q)]. exists i. unfold y_max_index. cbv zeta. rewrite eq_bcast, F, E by auto.
    repeat split; auto; try tauto. intros j Hj. assert (Ij : In (znth (w0 _) xs j) xs) by (apply znth_in; unfold elt in *; lia).
    apply Z.le_neq. split; [now apply M|]. intros X. apply (val_inj e) in X; auto. apply (Q j Hj). congruence.
Qed.

Lemma C49_float_min_index_refuted_main :
  forall xs : list (word 4), length xs = 8%nat -> (forall x, In x xs -> is_NaN x = false) ->
    exists i, (i < 8)%nat /\ least float_le xs (nth i xs (w0 4)) /\
      snd (y_float_min_index (ypack xs)) =
        nth i [0; 0x3f800000; 0x40000000; 0x40400000; 0x40800000; 0x40a00000; 0x40c00000; 0x40e00000] 0.
Proof.
  exact fl_min_index_bits.
Qed.
