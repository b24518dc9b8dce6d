(** Properties of SimdArray and SimdMaskArray for every size, every set of native widths and every element type: C01-C10, C12-C17 (proofs). *)
From Coq Require Import ZArith List Bool Lia Permutation.
From Verif.Spec Require Import Seq NativeSpec MaskSpec OperandSpec.
From Verif.Model Require Import SplitSize SimdArray Mem SimdArrayOps ScalarVec.
From Verif.Proof Require ScalarVecP.
Import ListNotations.
Local Open Scope Z_scope.
From Verif.Proof Require Import SeqP SplitSizeP SimdArrayP SimdArrayMoveP SimdArrayOrdP SimdArrayOpsP.

Lemma C01_next_power_of_two_main :
  forall n, 1 <= n <= 2 ^ 63 ->
    exists fuel r k, npot64 fuel n = Some r /\ r = 2 ^ k /\ 0 <= k /\ n <= r /\
      (forall j, 0 <= j -> n <= 2 ^ j -> r <= 2 ^ j).
Proof.
  intros n Hn.
  destruct (next_pow2_spec (Z.to_nat n)) as (k' & E & Hb); [lia|].
  assert (Hp : Z.of_nat (Nat.pow 2 k') = 2 ^ Z.of_nat k') by (rewrite Nat2Z.inj_pow; reflexivity).
  exists (Z.to_nat (Z.log2 n) + 2)%nat, (2 ^ Z.of_nat k'), (Z.of_nat k'). rewrite npot64_eq by lia.
  split.
  { unfold next_pow2 in E. rewrite Z2Nat.id in E by lia.
    pose proof (npot_correct (Z.to_nat (Z.log2 n) + 2) n ltac:(lia) ltac:(lia)) as Q. rewrite Q in *.
    f_equal. assert (Nat.pow 2 k' <> 0)%nat by lia. rewrite <- Hp, <- E.
    rewrite Z2Nat.id; auto. destruct (npot_done n); [lia|]. apply Z.pow_nonneg. lia. }
  rewrite <- Hp. split; [reflexivity|]. split; [lia|]. split; [lia|]. rewrite Hp. clear E.
  assert (2 ^ Z.of_nat k' < 2 * n) by lia. remember (Z.of_nat k') as k.
  intros j Hj Hnj. destruct (Z.le_gt_cases k j); [apply Z.pow_le_mono_r; lia|].
  exfalso. assert (2 ^ j <= 2 ^ (k - 1)) by (apply Z.pow_le_mono_r; lia).
  assert (2 ^ k = 2 * 2 ^ (k - 1)) by (rewrite <- Z.pow_succ_r by lia; f_equal; lia). lia.
Qed.

Lemma C01_split_sizes_main :
  forall n, (2 <= n)%nat ->
    (exists k, left_size n = Nat.pow 2 k)%nat /\ (1 <= right_size n)%nat /\
    (right_size n <= left_size n)%nat /\ (left_size n + right_size n = n)%nat.
Proof.
  intros n Hn. destruct (left_size_spec n Hn) as (k & E & H1 & H2). unfold right_size.
  split; [now exists k|]. lia.
Qed.

Lemma C01_layout_exists_main :
  forall (A : Type) native n (a : A), widths_ok native -> (1 <= n)%nat ->
    exists t, wf native n t /\ to_list t = repeat a n /\ size t = n.
Proof.
  intros A native n a Hw Hn. exists (generate native n (fun _ => a)).
  split; [now apply generate_wf|]. split.
  - rewrite generate_list by auto. symmetry. apply (list_ext_tab A a); [apply repeat_length|].
    intros z Hz. now apply znth_repeat.
  - apply (wf_sz native Hw). now apply generate_wf.
Qed.

Lemma C02_operation_main :
  forall (A B : Type) native (zero : A) (f : list A -> B) n (args : list (operand A)),
    widths_ok native -> (1 <= n)%nat -> Forall (operand_ok n) args ->
    wf native n (from_operation native zero f n args) /\
    to_list (from_operation native zero f n args) =
      tab n (fun i => f (map (fun o => operand_at zero o i) args)).
Proof.
  intros A B native zero f n args Hw Hn Hf. apply from_op_ok; auto.
Qed.

Lemma C02_unary_main :
  forall (A B : Type) native (f : A -> B) n (t : sa A), wf native n t ->
    wf native n (map_sa f t) /\ to_list (map_sa f t) = map f (to_list t).
Proof.
  intros. now apply map_sa_ok.
Qed.

Lemma C02_binary_main :
  forall (A B C : Type) native (f : A -> B -> C) n (t : sa A) (x : sa B), widths_ok native ->
    wf native n t -> wf native n x ->
    exists r, zip_sa f t x = Some r /\ wf native n r /\ to_list r = map2 f (to_list t) (to_list x).
Proof.
  intros. now apply zip_sa_ok.
Qed.

Lemma C03_load_main :
  forall (A : Type) native n (m : memory A) base (mem : Z -> A), widths_ok native -> (1 <= n)%nat ->
    (forall i, 0 <= i < Z.of_nat n -> m (base + i) = Some (mem i)) ->
    exists t, load native m base n = Some t /\ wf native n t /\ to_list t = tab n mem.
Proof.
  intros A native n m base mem Hw Hn H.
  destruct (load_f_ok native (mem 0) Hw n n m base) as (t & E & W & L); [lia| |].
  - intros i Hi. exists (mem i). auto.
  - exists t. repeat split; auto. rewrite L. apply tab_ext. intros z Hz. now rewrite H.
Qed.

Lemma C03_load_out_of_bounds_main :
  forall (A : Type) native n (m : memory A) base i, widths_ok native -> (1 <= n)%nat ->
    0 <= i < Z.of_nat n -> m (base + i) = None -> load native m base n = None.
Proof.
  intros. eapply load_f_none; eauto.
Qed.

Lemma C03_store_main :
  forall (A : Type) native n (t : sa A) (m : memory A) base d, widths_ok native -> wf native n t ->
    (forall i, 0 <= i < Z.of_nat n -> exists v, m (base + i) = Some v) ->
    exists m', store t m base = Some m' /\
      (forall i, 0 <= i < Z.of_nat n -> m' (base + i) = Some (znth d (to_list t) i)) /\
      (forall a, a < base \/ base + Z.of_nat n <= a -> m' a = m a).
Proof.
  intros A native n t m base d Hw W H.
  destruct (store_ok native d Hw n t m base W H) as (m' & E & Hm). exists m'. split; auto. split.
  - intros i Hi. rewrite Hm. replace ((base <=? base + i) && (base + i <? base + Z.of_nat n)) with true.
    + do 2 f_equal. lia.
    + symmetry. apply andb_true_intro. split; [apply Z.leb_le|apply Z.ltb_lt]; lia.
  - intros a Ha. rewrite Hm. replace ((base <=? a) && (a <? base + Z.of_nat n)) with false; auto.
    symmetry. apply andb_false_iff. destruct Ha; [left; apply Z.leb_gt|right; apply Z.ltb_ge]; lia.
Qed.

Lemma C03_store_load_main :
  forall (A : Type) native n (t : sa A) (m m' : memory A) base, widths_ok native -> wf native n t ->
    store t m base = Some m' -> exists t', load native m' base n = Some t' /\ to_list t' = to_list t.
Proof.
  intros A native n t m m' base Hw W E.
  destruct (wf_size native Hw _ _ W) as (_ & L & P).
  assert (exists d, In d (to_list t)) as (d & _).
  { destruct (to_list t) as [|d l]; [cbn in L; lia|]. exists d. now left. }
  assert (Hall : forall i, 0 <= i < Z.of_nat n -> exists v, m (base + i) = Some v).
  { intros i Hi. destruct (m (base + i)) as [v|] eqn:Q; [eauto|].
    rewrite (store_none native d Hw n t m base i W Hi Q) in E. discriminate. }
  destruct (C03_store_main A native n t m base d Hw W Hall) as (m2 & E2 & H1 & _).
  rewrite E in E2. injection E2 as <-.
  destruct (C03_load_main A native n m' base (znth d (to_list t)) Hw) as (t' & El & Wl & Ll); [lia|auto|].
  exists t'. split; auto. rewrite Ll. rewrite <- L. apply tab_znth.
Qed.

Lemma C03_subscript_read_main :
  forall (A : Type) native n (t : sa A) i d, widths_ok native -> wf native n t ->
    (0 <= i < Z.of_nat n -> get d t i = Some (znth d (to_list t) i)) /\
    (~ 0 <= i < Z.of_nat n -> get d t i = None).
Proof.
  intros A native n t i d Hw W. split.
  - intros Hi. now apply (get_ok native d Hw n).
  - intros Hi. unfold get. rewrite (wf_isz native Hw n t W).
    destruct (Z.leb_spec 0 i), (Z.ltb_spec i (Z.of_nat n)); auto. lia.
Qed.

Lemma C03_subscript_write_main :
  forall (A : Type) native n (t : sa A) i v d, widths_ok native -> wf native n t ->
    0 <= i < Z.of_nat n ->
    wf native n (set t i v) /\
    forall z, znth d (to_list (set t i v)) z = if z =? i then v else znth d (to_list t) z.
Proof.
  intros. now apply set_ok.
Qed.

Lemma C04_generate_main :
  forall (A : Type) native n (f : Z -> A), widths_ok native -> (1 <= n)%nat ->
    wf native n (generate native n f) /\ to_list (generate native n f) = tab n f.
Proof.
  intros. split; [now apply generate_wf|now apply generate_list].
Qed.

Lemma C05_shifted_power_of_two_main :
  forall (A : Type) native (ops : native_ops A) zero j (t : sa A) k,
    widths_ok native -> native_moves_ok native zero ops -> wf native (Nat.pow 2 j) t ->
    exists r, shifted native ops zero t k = Some r /\ wf native (Nat.pow 2 j) r /\
      to_list r = shift_spec zero (to_list t) k.
Proof.
  intros A native ops zero j t k Hw Hm W.
  destruct (shifted_pow2_good native ops zero Hw Hm (Nat.pow 2 j) t k) as (r & E & Wr & L); eauto.
  exists r. repeat split; auto. rewrite L. unfold shift_spec. now rewrite (wf_len native Hw _ _ W).
Qed.

Lemma C05_shifted_partial_main :
  forall (A : Type) native (ops : native_ops A) zero n (t : sa A) k,
    widths_ok native -> native_moves_ok native zero ops -> wf native n t ->
    native n = true \/ k = 0 \/ Z.of_nat (left_size n) <= Z.abs k ->
    exists r, shifted native ops zero t k = Some r /\ wf native n r /\
      to_list r = shift_spec zero (to_list t) k.
Proof.
  intros A native ops zero n t k Hw Hm W Hk.
  destruct (shifted_outer_good native ops zero Hw Hm n t k) as (r & E & Wr & L); eauto.
  exists r. repeat split; auto. rewrite L. unfold shift_spec. now rewrite (wf_len native Hw _ _ W).
Qed.

Lemma C05_shifted_refuted_main :
  forall (A : Type) native (ops : native_ops A) zero one n k,
    widths_ok native -> native_moves_ok native zero ops -> one <> zero ->
    native n = false -> (1 <= n)%nat -> left_size n <> right_size n -> - Z.of_nat (left_size n) < k < 0 ->
    exists t, wf native n t /\
      forall r, shifted native ops zero t k = Some r -> to_list r <> shift_spec zero (to_list t) k.
Proof.
  intros A native ops zero one n k Hw Hm H1 Hn H2 H3 H4.
  destruct (shifted_wrong native ops zero Hw Hm n k one) as (t & W & F); auto.
  exists t. split; auto. intros r E. unfold shift_spec. rewrite (wf_len native Hw _ _ W). now apply F.
Qed.

Lemma C06_shifted_in_main :
  forall (A : Type) native (ops : native_ops A) zero n (t s : sa A) k,
    widths_ok native -> native_moves_ok native zero ops -> wf native n t -> wf native n s ->
    - Z.of_nat n <= k <= Z.of_nat n ->
    exists r, shifted_in native ops zero t k s = Some r /\ wf native n r /\
      to_list r = shiftin_spec zero (to_list t) (to_list s) k.
Proof.
  intros A native ops zero n t s k Hw Hm W Ws Hk.
  destruct (shifted_in_good native ops zero Hw Hm n n t s k) as (r & E & Wr & L); auto.
  exists r. repeat split; auto. rewrite L. rewrite shiftin_spec_win.
  - now rewrite (wf_len native Hw _ _ W).
  - now rewrite (wf_len native Hw _ _ W), (wf_len native Hw _ _ Ws).
Qed.

Lemma C06_shifted_in_far_main :
  forall (A : Type) native (ops : native_ops A) zero n (t s : sa A) k,
    widths_ok native -> native_moves_ok native zero ops -> wf native n t -> wf native n s ->
    native n = false -> -2 * Z.of_nat n < k ->
    exists r, shifted_in native ops zero t k s = Some r /\ wf native n r /\
      to_list r = shiftin_spec zero (to_list t) (to_list s) k.
Proof.
  intros A native ops zero n t s k Hw Hm W Ws Hn Hk.
  destruct (shifted_in_node_good native ops zero Hw Hm n t s k) as (r & E & Wr & L); auto.
  exists r. repeat split; auto. rewrite L. rewrite shiftin_spec_win.
  - now rewrite (wf_len native Hw _ _ W).
  - now rewrite (wf_len native Hw _ _ W), (wf_len native Hw _ _ Ws).
Qed.

Lemma shifted_in_f_far A native (ops : native_ops A) zero : widths_ok native ->
  forall fuel j (t s : sa A) k, wf native (Nat.pow 2 j) t -> wf native (Nat.pow 2 j) s ->
    k <= - 2 * Z.of_nat (Nat.pow 2 j) -> shifted_in_f native ops zero fuel t k s = None.
Proof.
  intros Hw. induction fuel as [|fuel IH]; intros j t s k W Ws Hk; [reflexivity|].
  pose proof (wf_size native Hw _ _ W) as (St & _ & Pt).
  inversion W as [n' xs N L E1 E2|n' l r E W0 W1 E1 E2]; subst n' t.
  - cbn. unfold isize. cbn [size]. cbn in St. rewrite St.
    destruct (Z.leb_spec (- Z.of_nat (Nat.pow 2 j)) k); [lia|]. reflexivity.
  - inversion Ws as [n'' xs N L F1 F2|n'' l' r' E' W0' W1' F1 F2]; subst n'' s; [congruence|].
    destruct j as [|j]; [destruct Hw as [Hw1 _]; cbn in E; congruence|].
    pose proof (left_size_pow2 j) as HL. assert (HR : right_size (Nat.pow 2 (S j)) = Nat.pow 2 j).
    { unfold right_size. rewrite HL. cbn. lia. }
    rewrite HL in W0, W0'. rewrite HR in W1, W1'.
    pose proof (wf_sz native Hw _ _ W0) as S0. pose proof (wf_sz native Hw _ _ W1) as S1.
    pose proof (wf_sz native Hw _ _ W0') as S0'. pose proof (wf_sz native Hw _ _ W1') as S1'.
    cbn [shifted_in_f]. unfold isize. cbn [size]. rewrite S0, S1, S0', S1'. rewrite !Nat.eqb_refl. cbn [negb andb].
    assert (P : (Nat.pow 2 (S j) = Nat.pow 2 j + Nat.pow 2 j)%nat) by (cbn; lia).
    pose proof (Nat.pow_nonzero 2 j ltac:(lia)).
    zcases. rewrite (IH j); auto. lia.
Qed.

Lemma C06_shifted_in_refuted_main :
  forall (A : Type) native (ops : native_ops A) zero n (t s : sa A) k,
    widths_ok native -> wf native n t -> wf native n s -> native n = false ->
    left_size n = right_size n -> k <= -2 * Z.of_nat n -> shifted_in native ops zero t k s = None.
Proof.
  intros A native ops zero n t s k Hw W Ws Hn He Hk.
  pose proof (wf_size native Hw _ _ W) as (_ & _ & P).
  assert (2 <= n)%nat by (destruct Hw as [Hw1 _]; destruct n as [|[|]]; [lia|congruence|lia]).
  destruct (equal_halves_pow2 n) as (j & ->); auto.
  { unfold right_size in He. pose proof (left_size_lt n). lia. }
  now apply (shifted_in_f_far A native ops zero Hw) with (j := S j).
Qed.

Lemma C07_rotated_main :
  forall (A : Type) native (ops : native_ops A) zero n (t : sa A) k,
    widths_ok native -> native_moves_ok native zero ops -> wf native n t ->
    exists r, rotated native ops zero t k = Some r /\ wf native n r /\
      to_list r = rotate_spec zero (to_list t) k.
Proof.
  intros A native ops zero n t k Hw Hm W.
  destruct (rotated_good native ops zero Hw Hm n t k W) as (r & E & Wr & L).
  exists r. repeat split; auto. rewrite L. unfold rotate_spec. now rewrite (wf_len native Hw _ _ W).
Qed.

Lemma C08_reversed_main :
  forall (A : Type) native (ops : native_ops A) zero n (t : sa A),
    widths_ok native -> native_moves_ok native zero ops -> wf native n t ->
    exists r, reversed native ops zero t = Some r /\ wf native n r /\ to_list r = rev (to_list t).
Proof.
  intros A native ops zero n t Hw Hm W.
  destruct (reversed_yields native ops zero Hw Hm n t W) as (r & E & Wr & L). eauto.
Qed.

Lemma C09_interleave_main :
  forall (A : Type) native (ops : native_ops A) zero n (t x : sa A),
    widths_ok native -> native_moves_ok native zero ops -> wf native n t -> wf native n x ->
    exists lo hi, interleave_low native ops zero t x = Some lo /\ interleave_high native ops zero t x = Some hi /\
      wf native n lo /\ wf native n hi /\ to_list lo ++ to_list hi = interleave_spec (to_list t) (to_list x).
Proof.
  intros A native ops zero n t x Hw Hm W Wx.
  destruct (interleave_good native ops zero Hw Hm n t x W Wx) as ((lo & E1 & W1 & L1) & (hi & E2 & W2 & L2)).
  exists lo, hi. repeat split; auto. rewrite L1, L2.
  pose proof (wf_len native Hw _ _ W) as Lt. pose proof (wf_len native Hw _ _ Wx) as Lx.
  assert (Q : forall g : Z -> A, tab n g ++ tab n (fun i => g (i + Z.of_nat n)) = tab (n + n) g).
  { intros g. rewrite tab_app. f_equal. apply tab_ext. intros z Hz. f_equal. lia. }
  rewrite Q. symmetry. apply (list_ext_tab A zero).
  - rewrite interleave_length; lia.
  - intros z Hz. apply interleave_spec_IL; lia.
Qed.

Lemma C10_sorted_main :
  forall (A : Type) native (ops : native_ops A) zero (le : A -> A -> bool) mn mx top n (t : sa A),
    widths_ok native -> native_moves_ok native zero ops -> native_sorted_ok native le ops ->
    total_order le -> (forall x, le x top = true) ->
    (forall x y, mn x y = if le x y then x else y) -> (forall x y, mx x y = if le x y then y else x) ->
    wf native n t ->
    exists r, sorted native ops zero mn mx top t = Some r /\ wf native n r /\
      sorted_spec le (to_list r) /\ Permutation (to_list r) (to_list t).
Proof.
  intros A native ops zero le mn mx top n t Hw Hm Hs Ht Htop Hmn Hmx W.
  destruct (sorted_all native ops zero Hw Hm le mn mx top Ht Hmn Hmx Htop Hs n t W) as (r & E & Wr & S & P).
  eauto.
Qed.

Lemma C12_partial_sum_main :
  forall (A : Type) native (ops : native_ops A) zero add n (t : sa A),
    widths_ok native -> native_partial_sum_ok native add ops -> (forall a b, add a b = add b a) ->
    wf native n t ->
    exists r, partial_sum ops zero add t = Some r /\ wf native n r /\
      to_list r = partial_sum_spec add (to_list t).
Proof.
  intros A native ops zero add n t Hw Hp Hc W.
  destruct (partial_sum_f_yields native ops zero Hw add Hc Hp (size t + 1) n t W) as (r & E & Wr & L).
  - rewrite (wf_sz native Hw _ _ W). lia.
  - eauto.
Qed.

Lemma C13_reduce_main :
  forall (A : Type) native (f : A -> A -> A) red n (t : sa A),
    widths_ok native -> native_reduce_ok native f red ->
    (forall x y z, f (f x y) z = f x (f y z)) -> (forall x y, f x y = f y x) -> wf native n t ->
    exists v, reduce red f t = Some v /\ reduce_spec f (to_list t) = Some v.
Proof.
  intros A native f red n t Hw Hr Ha Hc W. unfold reduce.
  apply (reduce_f_ok f Ha Hc native red Hw Hr _ n t W). rewrite (wf_sz native Hw _ _ W). lia.
Qed.

Lemma C14_reduce_masked_main :
  forall (A : Type) native K (f : A -> A -> A) mred n (t : sa A) (k : sa bool),
    widths_ok native -> native_masks_ok native K -> native_reduce_masked_ok native f mred ->
    (forall x y z, f (f x y) z = f x (f y z)) -> wf native n t -> wf native n k ->
    (exists i, znth false (to_list k) i = true) ->
    exists v, reduce_masked K mred f t k = Some v /\
      reduce_spec f (select_spec (to_list k) (to_list t)) = Some v.
Proof.
  intros A native K f mred n t k Hw Hk Hr Ha W Wk (i & Hi).
  apply (reduce_masked_ok native K Hw Hk f mred Ha Hr n t k W Wk).
  intros Q. unfold znth in Hi. destruct (Z.leb_spec 0 i), (Z.ltb_spec i (Z.of_nat (length (to_list k)))); cbn in Hi; try discriminate.
  rewrite Q in Hi; [discriminate|]. apply nth_In. lia.
Qed.

Lemma C15_masked_assign_main :
  forall (A : Type) native nassign n (x v : sa A) (k : sa bool),
    widths_ok native -> native_assign_ok native nassign ->
    wf native n x -> wf native n v -> wf native n k ->
    exists r, assign nassign x v k = Some r /\ wf native n r /\
      to_list r = masked_update_spec (to_list k) (to_list v) (to_list x).
Proof.
  intros. now apply assign_ok.
Qed.

Lemma C15_iif_main :
  forall (A : Type) native nassign n (k : sa bool) (a b : sa A),
    widths_ok native -> native_assign_ok native nassign ->
    wf native n k -> wf native n a -> wf native n b ->
    exists r, iif nassign k a b = Some r /\ wf native n r /\
      to_list r = map3 (fun (m : bool) x y => if m then x else y) (to_list k) (to_list a) (to_list b).
Proof.
  intros A native nassign n k a b Hw Ha Wk Wa Wb.
  destruct (assign_ok native Hw nassign Ha n b a k Wb Wa Wk) as (r & E & Wr & L).
  exists r. repeat split; auto.
Qed.

Lemma C15_masked_op_assign_main :
  forall (A : Type) native nassign (f : A -> A -> A) n (x y : sa A) (k : sa bool),
    widths_ok native -> native_assign_ok native nassign ->
    wf native n x -> wf native n y -> wf native n k ->
    exists r, masked_op_assign nassign f x y k = Some r /\ wf native n r /\
      to_list r = map3 (fun (b : bool) a c => if b then f a c else a) (to_list k) (to_list x) (to_list y).
Proof.
  intros A native nassign f n x y k Hw Ha Wx Wy Wk.
  destruct (masked_op_assign_ok native Hw nassign Ha f n x y k Wx Wy Wk) as (r & E & Wr & L).
  exists r. repeat split; auto. rewrite L. unfold masked_update_spec.
  generalize (to_list k) (to_list x) (to_list y).
  induction l as [|b l IH]; intros [|a l0] [|c l1]; cbn; auto. f_equal. apply IH.
Qed.

Lemma C15_masked_increment_main :
  forall (A : Type) native zero nszi add (one : A) n (x : sa A) (k : sa bool),
    widths_ok native -> native_zero_inverted_ok native zero nszi -> (forall a, add a zero = a) ->
    wf native n x -> wf native n k ->
    exists r, masked_increment nszi add one x k = Some r /\ wf native n r /\
      to_list r = map2 (fun (b : bool) a => if b then add a one else a) (to_list k) (to_list x).
Proof.
  intros A native zero nszi add one n x k Hw Hz Ha Wx Wk.
  destruct (masked_increment_ok native Hw zero nszi Hz add one n x k Ha Wx Wk) as (r & E & Wr & L).
  exists r. repeat split; auto. rewrite L. unfold masked_update_spec.
  generalize (to_list k) (to_list x).
  induction l as [|b l IH]; intros [|a l0]; cbn; auto. f_equal. apply IH.
Qed.

Lemma C16_mask_queries_main :
  forall native K n (m : sa bool), widths_ok native -> native_masks_ok native K -> wf native n m ->
    (is_full K m = true <-> forall b, In b (to_list m) -> b = true) /\
    (is_empty K m = true <-> forall b, In b (to_list m) -> b = false) /\
    (is_not_empty K m = true <-> exists b, In b (to_list m) /\ b = true) /\
    (is_mix K m = true <-> In true (to_list m) /\ In false (to_list m)) /\
    count K m = count_spec (to_list m) /\
    (In true (to_list m) -> first_one_spec (to_list m) (first_one K m)).
Proof.
  intros native K n m Hw Hk W.
  pose proof (is_full_ok native K Hk n m W) as F. pose proof (is_empty_ok native K Hk n m W) as E.
  pose proof (is_not_empty_ok native K Hk n m W) as NE.
  assert (D : forall l : list bool, (In true l \/ none_spec l) /\ (In false l \/ all_spec l)).
  { intros l. split.
    - destruct (in_dec Bool.bool_dec true l); auto. right. intros [|] Hb; auto; contradiction.
    - destruct (in_dec Bool.bool_dec false l); auto. right. intros [|] Hb; auto; contradiction. }
  destruct (D (to_list m)) as [D1 D2].
  split; [exact F|]. split; [exact E|]. split.
  { rewrite NE. split.
    - intros H. destruct D1; [eauto|contradiction].
    - intros (b & Hb & ->) Q. specialize (Q _ Hb). discriminate. }
  split.
  { unfold is_mix. rewrite andb_true_iff, !negb_true_iff. split.
    - intros [H1 H2]. split.
      + destruct D1 as [|D1]; auto. apply E in D1. congruence.
      + destruct D2 as [|D2]; auto. apply F in D2. congruence.
    - intros [H1 H2]. split.
      + destruct (is_full K m); auto. destruct F as [F _]. specialize (F eq_refl _ H2). discriminate.
      + destruct (is_empty K m); auto. destruct E as [E _]. specialize (E eq_refl _ H1). discriminate. }
  split; [now apply (count_ok native K Hk n)|].
  intros H. apply (first_one_ok native K Hw Hk n m W). intros Q. specialize (Q _ H). discriminate.
Qed.

Lemma C16_mask_to_int_main :
  forall native K n (m : sa bool), widths_ok native -> native_masks_ok native K -> wf native n m ->
    (n <= 31)%nat ->
    exists v, to_int K m = Some v /\ 0 <= v < 2 ^ Z.of_nat n /\
      forall i, 0 <= i < Z.of_nat n -> Z.testbit v i = znth false (to_list m) i.
Proof.
  intros native K n m Hw Hk W Hn. exists (to_int_spec (to_list m)).
  split; [now apply (to_int_ok native K Hw Hk n)|].
  split.
  - rewrite <- (wf_len native Hw _ _ W). apply to_int_bound.
  - intros i Hi. rewrite <- (wf_len native Hw _ _ W) in Hi. clear -Hi. revert i Hi.
    induction (to_list m) as [|b l IH]; intros i Hi; cbn [length] in Hi; [lia|].
    cbn [to_int_spec]. destruct (Z.eq_dec i 0) as [->|Hi0].
    + rewrite Z.add_comm. destruct b; [now rewrite Z.testbit_odd_0|]. rewrite Z.add_0_r. now rewrite Z.testbit_even_0.
    + replace i with (Z.succ (i - 1)) by lia. rewrite Z.add_comm.
      replace (Z.testbit (2 * to_int_spec l + (if b then 1 else 0)) (Z.succ (i - 1)))
        with (Z.testbit (to_int_spec l) (i - 1)).
      2:{ destruct b; [now rewrite Z.testbit_odd_succ by lia|]. rewrite Z.add_0_r. now rewrite Z.testbit_even_succ by lia. }
      rewrite IH by lia. unfold znth. cbn [length].
      destruct (Z.leb_spec 0 (i - 1)); [|lia]. destruct (Z.ltb_spec (i - 1) (Z.of_nat (length l))); [|lia].
      destruct (Z.leb_spec 0 (Z.succ (i - 1))); [|lia].
      destruct (Z.ltb_spec (Z.succ (i - 1)) (Z.of_nat (S (length l)))); [|lia]. cbn [andb].
      rewrite Z2Nat.inj_succ by lia. reflexivity.
Qed.

Lemma C16_mask_to_int_refuted_main :
  forall native K n (m : sa bool), widths_ok native -> wf native n m -> (32 < n)%nat -> native n = false ->
    to_int K m = None.
Proof.
  intros. eapply to_int_ub; eassumption.
Qed.

Lemma C16_mask_equality_main :
  forall native K n (m m' : sa bool), widths_ok native -> native_masks_ok native K ->
    wf native n m -> wf native n m' ->
    exists b, mask_eq K m m' = Some b /\ mask_neq K m m' = Some (negb b) /\
      (b = true <-> to_list m = to_list m').
Proof.
  intros native K n m m' Hw Hk W W'.
  destruct (mask_eq_ok native K Hw Hk n m m' W W') as (b & E & Hb).
  destruct (mask_neq_ok native K Hw Hk n m m' W W') as (c & F & Hc).
  exists b. split; auto. split; auto. rewrite F. f_equal.
  destruct b, c; auto; cbn.
  - destruct Hc as [Hc _]. specialize (Hc eq_refl). destruct Hc. now apply Hb.
  - destruct (list_eq_dec Bool.bool_dec (to_list m) (to_list m')) as [Q|Q].
    + now apply Hb in Q.
    + now apply Hc in Q.
Qed.

Lemma C17_mask_shifted_main :
  forall native n (m : sa bool) k, widths_ok native -> wf native n m ->
    Z.of_nat n <= 2 ^ 31 -> - 2 ^ 31 <= k < 2 ^ 31 ->
    exists r, mask_shifted native m k = Some r /\ wf native n r /\ to_list r = shift_spec false (to_list m) k.
Proof.
  intros native n m k Hw W Hn Hk.
  destruct (mask_shifted_ok native Hw n m k W Hn Hk) as (r & E & Wr & L).
  exists r. repeat split; auto. rewrite L. unfold shift_spec. now rewrite (wf_len native Hw _ _ W).
Qed.

Lemma C17_mask_generate_get_main :
  forall native n (f : Z -> bool) i, widths_ok native -> (1 <= n)%nat -> 0 <= i < Z.of_nat n ->
    mask_get (generate native n f) i = Some (f i).
Proof.
  intros native n f i Hw Hn Hi. rewrite (mask_get_ok native Hw n); auto.
  - rewrite generate_list by auto. now rewrite znth_tab.
  - now apply generate_wf.
Qed.
