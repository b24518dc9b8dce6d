(** The AVX reductions and blends satisfy what SimdArray relies on. *)
From Coq Require Import ZArith List Bool Lia.
From Verif.Spec Require Import Seq NativeSpec MaskSpec FloatSpec VectorSpec.
From Verif.Model Require Import Word Fp SseReg SseMove SortNet SseInt SimdArray SimdArrayOps ScalarVec SseBuild SseArith SseMask SseNative
  AvxReg AvxMove AvxBuild AvxShuffle AvxMask AvxArith.
From Verif.Proof Require Import SeqP WordP SseMoveP SseVecP SseIntP SseEmulP SseMaskP FpP SseArithP SseBuildP SseNativeP SseFloatRedP AvxShuffleP AvxMaskP AvxArithP.
Import ListNotations.
Local Open Scope Z_scope.

Lemma awidth_cases {X} avx2 e (xs : list X) : avx_widths_of avx2 e (length xs) = true ->
  (Nat.eqb (length xs) (32 / esize e) = true /\ length xs = (32 / esize e)%nat) \/
  (Nat.eqb (length xs) (32 / esize e) = false /\ sse_native (esize e) (length xs) = true).
Proof.
  intros H. unfold avx_widths_of, avx_native in H. destruct (has256 avx2 e).
  - destruct (Nat.eqb_spec (length xs) (32 / esize e)); [now left|right]. split; auto. now rewrite orb_false_r in H.
  - destruct (Nat.eqb_spec (length xs) (32 / esize e)) as [E|]; [now left|now right].
Qed.
Lemma ared avx2 e f (v : yreg -> elt e) (s : list (elt e) -> elt e) :
  (forall xs : list (elt e), length xs = (32 / esize e)%nat -> reduce_spec f xs = Some (v (ypack xs))) ->
  native_reduce_ok (sse_native (esize e)) f s ->
  native_reduce_ok (avx_widths_of avx2 e) f (fun xs => full_or (esize e) xs (v (ypack xs)) (s xs)).
Proof.
  intros H S xs N. unfold full_or. destruct (awidth_cases _ _ _ N) as [[E L]|[E L]]; rewrite E; auto.
Qed.
Lemma avx_min_ok avx2 e : is_integer e = true -> native_reduce_ok (avx_widths_of avx2 e) (e_min e) (avx_min e).
Proof. intros He. apply ared; [now apply y_min_all_ok|now apply sse_min_ok]. Qed.
Lemma avx_max_ok avx2 e : is_integer e = true -> native_reduce_ok (avx_widths_of avx2 e) (e_max e) (avx_max e).
Proof. intros He. apply ared; [now apply y_max_all_ok|now apply sse_max_ok]. Qed.
Lemma avx_sum_ok avx2 e : is_integer e = true -> native_reduce_ok (avx_widths_of avx2 e) wadd (avx_sum e).
Proof. intros He. apply ared; [now apply y_sum_ok|now apply sse_sum_ok]. Qed.
Lemma avx_product_ok avx2 e : is_integer e = true -> native_reduce_ok (avx_widths_of avx2 e) wmul (avx_product e).
Proof. intros He. apply ared; [now apply y_product_ok|now apply sse_product_ok]. Qed.

Lemma amred avx2 e f (v : yreg -> yreg -> elt e) (s : list (elt e) -> list bool -> elt e) :
  (forall m (xs : list (elt e)), length xs = (32 / esize e)%nat -> length m = length xs -> ~ none_spec m ->
     reduce_spec f (select_spec m xs) = Some (v (ypack xs) (ymask_reg (esize e) m))) ->
  native_reduce_masked_ok (sse_native (esize e)) f s ->
  native_reduce_masked_ok (avx_widths_of avx2 e) f (fun xs m => full_or (esize e) xs (v (ypack xs) (ymask_reg (esize e) m)) (s xs m)).
Proof.
  intros H S xs m N L NN. unfold full_or. destruct (awidth_cases _ _ _ N) as [[E L']|[E L']]; rewrite E; auto.
Qed.
Lemma avx_min_masked_ok limits avx2 e : is_integer e = true -> native_reduce_masked_ok (avx_widths_of avx2 e) (e_min e) (avx_min_masked limits e).
Proof.
  intros He. apply (amred avx2 e (e_min e) (y_min_masked limits e)).
  - intros. now apply y_min_masked_ok.
  - rewrite He. now apply sse_min_masked_ok.
Qed.
Lemma avx_max_masked_ok limits avx2 e : is_integer e = true -> native_reduce_masked_ok (avx_widths_of avx2 e) (e_max e) (avx_max_masked limits e).
Proof.
  intros He. apply (amred avx2 e (e_max e) (y_max_masked limits e)).
  - intros. now apply y_max_masked_ok.
  - rewrite He. now apply sse_max_masked_ok.
Qed.
Lemma avx_sum_masked_ok avx2 e : is_integer e = true -> native_reduce_masked_ok (avx_widths_of avx2 e) wadd (avx_sum_masked e).
Proof. intros He. apply amred; [intros; now apply y_sum_masked_ok|now apply sse_sum_masked_ok]. Qed.
Lemma avx_product_masked_ok avx2 e : is_integer e = true -> native_reduce_masked_ok (avx_widths_of avx2 e) wmul (avx_product_masked e).
Proof. intros He. apply amred; [intros; now apply y_product_masked_ok|now apply sse_product_masked_ok]. Qed.

Lemma avx_assign_native avx2 e : native_assign_ok (avx_widths_of avx2 e) (avx_assign e).
Proof.
  intros xs vs m N Lv Lm. unfold avx_assign, full_or. destruct (awidth_cases _ _ _ N) as [[E L]|[E L]]; rewrite E.
  - rewrite y_assign_ok by auto. apply ylanes_ypack. apply esize_ok. rewrite <- L. unfold masked_update_spec. rewrite map3_length; auto; congruence.
  - now apply sse_assign_native.
Qed.
Lemma avx_zero_inverted_native avx2 e : native_zero_inverted_ok (avx_widths_of avx2 e) (w0 _) (avx_zero_inverted e).
Proof.
  intros xs m N Lm. unfold avx_zero_inverted, full_or. destruct (awidth_cases _ _ _ N) as [[E L]|[E L]]; unfold elt in *; rewrite E.
  - rewrite y_set_zero_inverted_ok by auto. apply ylanes_ypack. apply esize_ok. rewrite map2_length, Lm, Nat.min_id. exact L.
  - now apply sse_zero_inverted_native.
Qed.

(** * minIndex, maxIndex *)
Lemma bcast_len e (x : elt e) : length (repeat x (32 / esize e)) = (32 / esize e)%nat.
Proof. apply repeat_length. Qed.
Lemma eq_bcast e (xs : list (elt e)) x : is_integer e = true -> length xs = (32 / esize e)%nat ->
  y_eq e (ypack xs) (y_bcast e x) = ymask_reg (esize e) (map (fun a => e_val e a =? e_val e x) xs).
Proof.
  intros He L. unfold y_eq, y_bcast. rewrite He, y_cmpeq_int by (auto; apply repeat_length). f_equal.
  rewrite <- L. now rewrite map2_repeat_r.
Qed.
Lemma fl_swap (a b c d e f g h : word 4) : ymem_permute128 8 0 1 0 (ypack [a; b; c; d; e; f; g; h]) = ypack [e; f; g; h; a; b; c; d].
Proof. reflexivity. Qed.
Lemma fl_swap2 (a b c d e f g h : word 4) : yreg_permute_ps 2 3 0 1 (ypack [a; b; c; d; e; f; g; h]) = ypack [b; a; d; c; f; e; h; g].
Proof. reflexivity. Qed.
Lemma fl_swap1 (a b c d e f g h : word 4) : yreg_permute_ps 1 0 3 2 (ypack [a; b; c; d; e; f; g; h]) = ypack [c; d; a; b; g; h; e; f].
Proof. reflexivity. Qed.
Lemma fl_cmp (xs ys : list (word 4)) : length xs = 8%nat -> length ys = 8%nat -> y_fcmp Float flt (ypack xs) (ypack ys) = ymask_reg 4 (map2 flt xs ys).
Proof. intros Lx Ly. apply (ymap2_mask (w := 4)); auto. exact (esize_ok Float). intros. apply (fcmp_pack 4); auto. Qed.
Lemma fl_sel (xs ys : list (word 4)) k : length xs = 8%nat -> length ys = 8%nat -> length k = 8%nat ->
  y_blendv_ps (ypack xs) (ypack ys) (ymask_reg 4 k) = ypack (masked_update_spec k ys xs).
Proof. intros Lx Ly Lk. refine (y_assign_ok Float xs ys k Lx _ _); [exact (eq_trans Ly (eq_sym Lx))|exact (eq_trans Lk (eq_sym Lx))]. Qed.

(** the tournament of minIndex() *)
Definition fmin_pair (p q : word 4 * word 4) : word 4 * word 4 := if flt (fst p) (fst q) then p else q.
Lemma fl_min_index (a b c d e f g h : word 4) (ia ib ic id ie ig ih jf : word 4) :
  float_indexes = ypack [ia; ib; ic; id; ie; jf; ig; ih] ->
  let m := fmin_pair in
  snd (y_float_min_index (ypack [a; b; c; d; e; f; g; h])) =
    sval (snd (m (m (m (a, ia) (e, ie)) (m (b, ib) (f, jf))) (m (m (c, ic) (g, ig)) (m (d, id) (h, ih))))).
Proof.
  intros E m. unfold y_float_min_index. rewrite E. cbv zeta. cbn [fst snd].
  rewrite !fl_swap, fl_cmp, !fl_sel by reflexivity. cbn [map2 masked_update_spec map3].
  rewrite !fl_swap2, fl_cmp, !fl_sel by reflexivity. cbn [map2 masked_update_spec map3].
  rewrite !fl_swap1, fl_cmp, !fl_sel by reflexivity. cbn [map2 masked_update_spec map3].
  match goal with |- sval (first_lane Int (lo128 (ypack [?a; ?b; ?c; ?d; ?e; ?f; ?g; ?h]))) = _ =>
    change (lo128 (ypack [a; b; c; d; e; f; g; h])) with (pack [a; b; c; d]) end.
  f_equal. rewrite (first_pack Int) by reflexivity. cbn [nth]. unfold m, fmin_pair. cbn [fst snd].
  repeat match goal with |- context [flt ?x ?y] => is_var x; is_var y; destruct (flt x y); cbn [fst snd] end; reflexivity.
Qed.

Definition below (ps : list (word 4 * word 4)) (r : word 4 * word 4) : Prop := In r ps /\ forall p, In p ps -> nn (fst p) /\ fkey (fst r) <= fkey (fst p).
Lemma below1 p : nn (fst p) -> below [p] p.
Proof. intros H. split; [now left|]. intros q [<-|[]]. split; auto. lia. Qed.
Lemma below2 ps qs p q : below ps p -> below qs q -> below (ps ++ qs) (fmin_pair p q).
Proof.
  intros [I H] [I' H']. destruct (H p I) as [Np _], (H' q I') as [Nq _]. unfold fmin_pair. destruct (flt (fst p) (fst q)) eqn:F.
  - apply flt_iff in F; auto. split; [apply in_or_app; auto|]. intros x Hx. apply in_app_or in Hx. destruct Hx as [Hx|Hx]; [now apply H|].
    destruct (H' x Hx). split; auto. lia.
  - assert (fkey (fst q) <= fkey (fst p)).
    { destruct (Z.le_gt_cases (fkey (fst q)) (fkey (fst p))) as [|G]; auto. apply flt_iff in G; auto. congruence. }
    split; [apply in_or_app; auto|]. intros x Hx. apply in_app_or in Hx. destruct Hx as [Hx|Hx]; [|now apply H'].
    destruct (H x Hx). split; auto. lia.
Qed.
Definition index_bits : list Z := [0; 0x3f800000; 0x40000000; 0x40400000; 0x40800000; 0x40a00000; 0x40c00000; 0x40e00000].
Lemma fl_min_index_bits (xs : list (word 4)) : length xs = 8%nat -> (forall x, In x xs -> is_NaN x = false) ->
  exists i, (i < 8)%nat /\ least float_le xs (nth i xs (w0 4)) /\ snd (y_float_min_index (ypack xs)) = nth i index_bits 0.
Proof.
  intros L N.
  assert (N' : forall x, In x xs -> nn x) by (intros x Hx; unfold nn; rewrite <- (nan_elt Float) by reflexivity; now apply N).
  explode_to 8%nat xs L. rename x into a, x0 into b, x1 into c, x2 into d, x3 into e, x4 into f, x5 into g, x6 into h.
  pose (I := fun z => mkw 4 (nth z index_bits 0)).
  rewrite (fl_min_index a b c d e f g h (I 0) (I 1) (I 2) (I 3) (I 4) (I 6) (I 7) (I 5))%nat by reflexivity. cbv zeta.
  match goal with |- context [snd ?t] => set (r := t) end.
  assert (B : below ((([(a, I 0%nat)] ++ [(e, I 4%nat)]) ++ ([(b, I 1%nat)] ++ [(f, I 5%nat)])) ++ (([(c, I 2%nat)] ++ [(g, I 6%nat)]) ++ ([(d, I 3%nat)] ++ [(h, I 7%nat)]))) r).
  { unfold r. repeat apply below2; apply below1; cbn [fst]; apply N'; cbn; auto 10. }
  destruct B as [B1 B2]. cbn [app] in B1, B2.
  assert (G : least float_le [a; b; c; d; e; f; g; h] (fst r)).
  { apply (lst_least Float); auto. split.
    - apply (in_map fst) in B1. cbn in B1 |- *. tauto.
    - intros x Hx. assert (M : In x (map fst [(a, I 0%nat); (e, I 4%nat); (b, I 1%nat); (f, I 5%nat); (c, I 2%nat); (g, I 6%nat); (d, I 3%nat); (h, I 7%nat)])) by (cbn in Hx |- *; tauto).
      apply in_map_iff in M. destruct M as [p [<- Hp]].
      now apply B2. }
  clearbody r. cbn [In] in B1.
  destruct B1 as [E|[E|[E|[E|[E|[E|[E|[E|[]]]]]]]]]; subst r; cbn [fst snd] in *;
    [exists 0%nat|exists 4%nat|exists 1%nat|exists 5%nat|exists 2%nat|exists 6%nat|exists 3%nat|exists 7%nat]; (split; [lia|split; [exact G|vm_compute; reflexivity]]).
Qed.

Lemma val_inj e (a b : elt e) : is_integer e = true -> e_val e a = e_val e b -> a = b.
Proof.
  intros He H. apply word_ext. destruct e; try discriminate He; cbn [e_val] in H; auto; rewrite <- (sval_mod a), <- (sval_mod b), H; reflexivity.
Qed.
Lemma znth_map_in {A C} (g : A -> C) d d' xs i : 0 <= i < Z.of_nat (length xs) -> znth d' (map g xs) i = g (znth d xs i).
Proof.
  intros H. rewrite !znth_nth_in by (rewrite ?map_length; auto). rewrite (nth_indep _ d' (g d)) by (rewrite map_length; lia). apply map_nth.
Qed.
Lemma first_at e (xs : list (elt e)) v : is_integer e = true -> length xs = (32 / esize e)%nat -> In v xs ->
  exists i, ym_first (esize e) (ymask_reg (esize e) (map (fun a => e_val e a =? e_val e v) xs)) = Some i /\
    0 <= i < Z.of_nat (length xs) /\ znth (w0 _) xs i = v /\ forall j, 0 <= j < i -> znth (w0 _) xs j <> v.
Proof.
  intros He L Iv. pose proof (ym_first_ok (esize e) (map (fun a => e_val e a =? e_val e v) xs) (esize_ok e)) as F.
  rewrite map_length in F. specialize (F L). destruct (ym_first _ _) as [i|].
  - destruct F as [Hi [F1 F2]]. exists i. repeat split; try tauto.
    + rewrite (znth_map_in _ (w0 (esize e))) in F1 by auto. apply Z.eqb_eq in F1. now apply (val_inj e).
    + intros j Hj E. specialize (F2 j Hj). rewrite (znth_map_in _ (w0 (esize e))) in F2 by (unfold elt in *; lia).
      rewrite E, Z.eqb_refl in F2. discriminate F2.
  - exfalso. assert (H : In true (map (fun a => e_val e a =? e_val e v) xs)).
    { apply in_map_iff. exists v. split; auto. apply Z.eqb_refl. }
    apply F in H. discriminate H.
Qed.
