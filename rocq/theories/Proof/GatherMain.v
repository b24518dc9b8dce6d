(** Iteration over set mask entries, gather and scatter (proofs). *)
From Coq Require Import ZArith List Bool Lia.
From Verif.Spec Require Import Seq NativeSpec MaskSpec OperandSpec GatherSpec.
From Verif.Model Require Import SplitSize SimdArray SimdArrayOps ScalarVec Mem SseMove SortNet SseInt SseBuild BitScan SseMask SseNative GatherScatter.
Import ListNotations.
Local Open Scope Z_scope.
From Verif.Proof Require Import SeqP SplitSizeP SimdArrayP SimdArrayOpsP ScalarVecP SseMoveP SseEmulP SseMaskP SseBuildP BitScanP GatherP.
From Verif.Props Require Import SimdArrayProps.

Lemma esize_width e : width_ok (esize e).
Proof. destruct e; unfold width_ok; cbn; auto. Qed.
Lemma to_int_eq native K (m : sa bool) : widths_ok native -> native_masks_ok native K -> forall n, wf native n m -> (n <= 32)%nat ->
  to_int K m = Some (to_int_spec (to_list m)).
Proof.
  intros W HK. induction m as [xs|l IHl r IHr]; intros n Wn Hn; inversion Wn as [n' ks N' Lk|n' k0 k1 N' W0 W1]; subst; cbn [to_int to_list].
  - now rewrite (ko_to_int _ _ HK).
  - destruct (wf_size native W _ _ Wn) as (_ & _ & P1). pose proof (not_native_ge2 native W _ P1 N') as H2. destruct (right_left n H2) as [R1 R2].
    rewrite (IHl _ W0), (IHr _ W1) by lia. cbn [obind]. unfold isize. destruct (wf_size native W _ _ W0) as (S0 & L0 & _). rewrite S0.
    destruct (Z.ltb_spec (Z.of_nat (left_size n)) 32); [|lia]. f_equal. rewrite to_int_app, L0. apply lor_disjoint_add; [lia|]. rewrite <- L0. apply to_int_bound.
Qed.

Lemma C20_where_iteration_main :
  forall native K n (m : sa bool), widths_ok native -> native_masks_ok native K -> wf native n m -> (n <= 31)%nat ->
    exists v, to_int K m = Some v /\ where_indices v = Some (true_indices (to_list m)).
Proof.
  intros native K n m W HK Wm Hn. exists (to_int_spec (to_list m)). split; [apply (to_int_eq native) with n; auto; lia|].
  apply where_ok. destruct (wf_size native W _ _ Wm) as (_ & L & _). lia.
Qed.

Lemma C20_true_indices_main :
  forall m, (forall i, In i (true_indices m) <-> 0 <= i < Z.of_nat (length m) /\ znth false m i = true) /\
    NoDup (true_indices m) /\ forall l1 i l2 j l3, true_indices m = l1 ++ i :: l2 ++ j :: l3 -> i < j.
Proof.
  intros m. split; [apply true_indices_in|]. rewrite true_indices_from. generalize 0. induction m as [|b m IH]; intros o.
  - split; [constructor|]. intros l1 i l2 j l3 E. destruct l1; discriminate E.
  - destruct (IH (o + 1)) as [N A]. cbn [set_from]. destruct b; cbn [app]; [|auto]. split.
    + constructor; [|exact N]. intros I. apply set_from_in in I. lia.
    + intros l1 i l2 j l3 E. destruct l1 as [|x l1]; cbn [app] in E; injection E as -> E; [|eauto].
      assert (I : In j (set_from (i + 1) m)) by (rewrite E; apply in_elt). apply set_from_in in I. lia.
Qed.

Lemma C20_where_iteration_refuted_main :
  forall native K (m : sa bool), widths_ok native -> native_masks_ok native K -> wf native 32 m ->
    znth false (to_list m) 31 = true ->
    exists v, to_int K m = Some v /\
      where_indices v = Some (true_indices (to_list m) ++ tab 32 (fun i => 32 + i)).
Proof.
  intros native K m W HK Wm Hl. exists (to_int_spec (to_list m)). split; [apply (to_int_eq native) with 32%nat; auto|].
  destruct (wf_size native W _ _ Wm) as (_ & L & _). revert Hl L. generalize (to_list m). clear. intros m T L.
  unfold where_indices, where_begin.
  assert (B : 2 ^ 31 <= to_int_spec m < 2 ^ 32).
  { pose proof (to_int_bound m) as B. rewrite L in B. split; [|exact (proj2 B)]. destruct (Z.lt_ge_cases (to_int_spec m) (2 ^ 31)) as [H|]; [|assumption].
    rewrite <- to_int_testbit in T by lia. exfalso. destruct (Z.eq_dec (to_int_spec m) 0) as [E0|N0]; [rewrite E0 in T; discriminate|].
    rewrite Z.bits_above_log2 in T; [discriminate|lia|]. apply Z.log2_lt_pow2; lia. }
  unfold int_to_size_t. destruct (Z.ltb_spec (to_int_spec m) (2 ^ 31)); [lia|].
  replace ((to_int_spec m - 2 ^ 32) mod 2 ^ 64) with (2 ^ 0 * to_int_spec (m ++ repeat true 32)).
  2: { rewrite to_int_app, L. change (to_int_spec (repeat true 32)) with (2 ^ 32 - 1). change (2 ^ Z.of_nat 32) with (2 ^ 32).
       apply Z.mod_unique with (-1); lia. }
  rewrite where_loop_ok; rewrite ?app_length, ?repeat_length, ?L; try (cbn; lia).
  f_equal. rewrite true_indices_from.
  assert (G : forall a o b, set_from o (a ++ b) = set_from o a ++ set_from (o + Z.of_nat (length a)) b).
  { clear. induction a as [|x a IH]; intros o b; [cbn; f_equal; lia|]. cbn [app set_from length]. rewrite IH, app_assoc. replace (o + 1 + Z.of_nat (length a)) with (o + Z.of_nat (S (length a))) by lia. reflexivity. }
  rewrite G, L. reflexivity.
Qed.

Lemma C24_sse_gather_main :
  forall (A : Type) (zero : A) e n (t : sa A) x m mem, wf (sse_native (esize e)) n t -> index_ok n x ->
    (mapped m mem (index_at x) n (fun _ => true) ->
       exists r, sse_gather m mem x t = Some r /\ wf (sse_native (esize e)) n r /\
         gathered zero m mem (index_at x) (fun _ => true) (to_list t) (to_list r)) /\
    ((exists i, 0 <= i < Z.of_nat n /\ m (mem + index_at x i) = None) -> sse_gather m mem x t = None).
Proof.
  intros A zero e n t x m mem W Hx. apply gather_ok; auto; [apply build_widths|apply native_gather_ok].
Qed.

Lemma C24_sse_gather_masked_main :
  forall (A : Type) (zero : A) e st hw n (t : sa A) (k : sa bool) x m mem, st <> SetIndexZero ->
    wf (sse_native (esize e)) n t -> wf (sse_native (esize e)) n k -> index_ok n x ->
    let sel := znth false (to_list k) in
    (mapped m mem (index_at x) n sel ->
       exists r, sse_gather_mask st hw (esize e) m mem x k t = Some r /\ wf (sse_native (esize e)) n r /\
         gathered zero m mem (index_at x) sel (to_list t) (to_list r)) /\
    ((exists i, 0 <= i < Z.of_nat n /\ sel i = true /\ m (mem + index_at x i) = None) ->
       sse_gather_mask st hw (esize e) m mem x k t = None).
Proof.
  intros A zero e st hw n t k x m mem Hst W Wk Hx. apply gather_mask_ok; auto; [apply build_widths|].
  apply native_gather_masked_ok; [apply esize_width|]. destruct st; try reflexivity. contradiction.
Qed.

Lemma C24_sse_gather_zero_index_partial_main :
  forall (A : Type) (zero : A) hw mask (v : list A) m mem idx, length mask = length v ->
    let sel := znth false mask in
    mapped m mem idx (length v) sel -> m mem <> None ->
    exists r, gather_masked SetIndexZero hw m mem idx mask (to_int_spec mask) v = Some r /\ gathered zero m mem idx sel v r.
Proof.
  intros. now apply gather_zero_ok.
Qed.

Lemma C24_gather_zero_index_refuted_main :
  forall (A : Type) hw mask (v : list A) (m : memory A) mem idx, length mask = length v ->
    (exists i, 0 <= i < Z.of_nat (length v) /\ znth false mask i = false) -> m mem = None ->
    gather_masked SetIndexZero hw m mem idx mask (to_int_spec mask) v = None.
Proof.
  intros A hw mask v m mem idx L (i & Hi & F) M. cbn [gather_masked]. unfold gather_all. rewrite sequence_none; [reflexivity|].
  exists i. split; [exact Hi|]. now rewrite F, Z.add_0_r.
Qed.

Lemma C24_gather_larger_index_refuted_main :
  forall (A : Type) (zero : A) (f : Z -> Z) (m : memory A) mem (t : sa A), wf (sse_native 4) 5 t ->
    let x := IxOperand (OTree (generate (sse_native 4) 16 f)) in
    (forall i, 0 <= i < 16 -> index_at x i = f i) /\
    forall r, sse_gather m mem x t = Some r -> m (mem + f 8) = Some (znth zero (to_list r) 4).
Proof.
  intros A zero f m mem t W x. split.
  - intros i Hi. unfold x, index_at, operand_at.
    rewrite (SimdArrayP.generate_list (sse_native 4) (build_widths Float)) by lia. apply znth_tab. lia.
  - intros r.
    assert (EG : generate (sse_native 4) 16 f =
      Node (Node (Leaf [f 0; f 1; f 2; f 3]) (Leaf [f 4; f 5; f 6; f 7])) (Node (Leaf [f 8; f 9; f 10; f 11]) (Leaf [f 12; f 13; f 14; f 15]))) by (vm_compute; reflexivity).
    unfold x. rewrite EG. clear EG x. inversion W as [n ks N L|n l r' N W0 W1]; subst; [discriminate N|].
    change (left_size 5) with 4%nat in W0. change (right_size 5) with 1%nat in W1.
    inversion W0 as [n ks N0 L0|]; subst; [|discriminate]. inversion W1 as [n ks' N1 L1|]; subst; [|discriminate].
    explode_to 4%nat ks L0. explode_to 1%nat ks' L1.
    unfold sse_gather, gather, gather_all, index_get, index_lo, index_hi, split_lo, split_hi, operand_elems. cbn -[Z.add].
    destruct (m (mem + _)); [|discriminate]. destruct (m (mem + _)); [|discriminate]. destruct (m (mem + _)); [|discriminate]. destruct (m (mem + _)); [|discriminate].
    cbn -[Z.add]. destruct (m (mem + f 8)) as [y|] eqn:E; [|discriminate]. cbn. intros [= <-]. reflexivity.
Qed.

Lemma C25_sse_scatter_main :
  forall (A : Type) (zero : A) e n (t : sa A) x m mem, wf (sse_native (esize e)) n t -> index_ok n x ->
    (mapped m mem (index_at x) n (fun _ => true) ->
       exists m', sse_scatter zero t mem x m = Some m' /\ scattered_last zero (to_list t) mem (index_at x) (fun _ => true) m m') /\
    ((exists i, 0 <= i < Z.of_nat n /\ m (mem + index_at x i) = None) -> sse_scatter zero t mem x m = None).
Proof.
  intros A zero e n t x m mem W Hx.
  destruct (scatter_ok zero (sse_native (esize e)) (build_widths e) true _ mem (native_scatter_ok zero (esize e)) n t W x m Hx) as [S1 S2].
  split; [|exact S2]. intros M. destruct (S1 M) as (m' & E & G). exists m'. split; [exact E|]. now apply scattered_last_of_gen.
Qed.

Lemma C25_sse_scatter_masked_main :
  forall (A : Type) (zero : A) e hw n (t : sa A) (k : sa bool) x m mem,
    wf (sse_native (esize e)) n t -> wf (sse_native (esize e)) n k -> index_ok n x ->
    let sel := znth false (to_list k) in
    (mapped m mem (index_at x) n sel ->
       exists m', sse_scatter_mask zero SimpleLoop hw (esize e) t mem x k m = Some m' /\
         scattered_last zero (to_list t) mem (index_at x) sel m m') /\
    ((exists i, 0 <= i < Z.of_nat n /\ sel i = true /\ m (mem + index_at x i) = None) ->
       sse_scatter_mask zero SimpleLoop hw (esize e) t mem x k m = None).
Proof.
  intros A zero e hw n t k x m mem W Wk Hx.
  destruct (scatter_mask_ok zero (sse_native (esize e)) (build_widths e) true _ mem
    (native_scatter_masked_ok zero SimpleLoop hw (esize e) (esize_width e) eq_refl) n t W k x m Wk Hx) as [S1 S2].
  split; [|exact S2]. intros M. destruct (S1 M) as (m' & E & G). exists m'. split; [exact E|]. now apply scattered_last_of_gen.
Qed.

Lemma C25_sse_scatter_strategies_partial_main :
  forall (A : Type) (zero : A) e st hw n (t : sa A) (k : sa bool) x m mem, st <> SetIndexZero ->
    wf (sse_native (esize e)) n t -> wf (sse_native (esize e)) n k -> index_ok n x ->
    let sel := znth false (to_list k) in
    (mapped m mem (index_at x) n sel ->
       exists m', sse_scatter_mask zero st hw (esize e) t mem x k m = Some m' /\
         scattered zero (to_list t) mem (index_at x) sel m m' /\
         ((forall i j, 0 <= i < Z.of_nat n -> 0 <= j < Z.of_nat n -> sel i = true -> sel j = true ->
             index_at x i = index_at x j -> i = j) ->
          forall i, 0 <= i < Z.of_nat n -> sel i = true -> m' (mem + index_at x i) = Some (znth zero (to_list t) i))) /\
    ((exists i, 0 <= i < Z.of_nat n /\ sel i = true /\ m (mem + index_at x i) = None) ->
       sse_scatter_mask zero st hw (esize e) t mem x k m = None).
Proof.
  intros A zero e st hw n t k x m mem Hst W Wk Hx.
  assert (Hs : exact_strategy st = true) by (destruct st; try reflexivity; contradiction).
  destruct (scatter_mask_ok zero (sse_native (esize e)) (build_widths e) _ _ mem
    (native_scatter_masked_ok zero st hw (esize e) (esize_width e) Hs) n t W k x m Wk Hx) as [S1 S2].
  split; [|exact S2]. intros M. destruct (S1 M) as (m' & E & G). exists m'. split; [exact E|]. apply scattered_of_gen in G. split; [exact G|].
  intros D i Hi T. destruct (wf_size _ (build_widths e) _ _ W) as (_ & L & _). destruct (G (mem + index_at x i)) as [[_ N]|(j & Hj & Tj & Ej & Em)].
  - elim (N i); auto. lia.
  - rewrite Em. f_equal. f_equal. apply D; auto; lia.
Qed.

Lemma C25_scatter_order_refuted_main :
  forall (A : Type) (zero : A) hw a b c d (m : memory A) p, m p <> None ->
    let v := [a; b; c; d] in
    let all := [true; true; true; true] in
    let some := [true; true; false; true] in
    option_map (fun m' => m' p) (scatter_masked zero SimpleLoop hw v p (fun _ => 0) all (to_int_spec all) m) = Some (Some d) /\
    option_map (fun m' => m' p) (scatter_masked zero BitScanLoop hw v p (fun _ => 0) all (to_int_spec all) m) = Some (Some c) /\
    option_map (fun m' => m' p) (scatter_masked zero SimpleLoop hw v p (fun _ => 0) some (to_int_spec some) m) = Some (Some d) /\
    option_map (fun m' => m' p) (scatter_masked zero PopcntSwitch hw v p (fun _ => 0) some (to_int_spec some) m) = Some (Some b).
Proof.
  intros A zero hw a b c d m p M v all some.
  assert (W : forall m0 : memory A, m0 p <> None -> forall i, scatter_lane zero v p (fun _ => 0) i m0 = Some (mem_set m0 p (znth zero v i))).
  { intros m0 H i. unfold scatter_lane, mem_write. rewrite Z.add_0_r. destruct (m0 p); [reflexivity|congruence]. }
  assert (N : forall (m0 : memory A) x, mem_set m0 p x p <> None) by (intros; unfold mem_set; rewrite Z.eqb_refl; discriminate).
  assert (R : forall l (m0 : memory A) i, m0 p <> None -> option_map (fun m' : memory A => m' p) (act_list (scatter_lane zero v p (fun _ => 0)) (l ++ [i]) m0) = Some (Some (znth zero v i))).
  { induction l as [|j l IH]; intros m0 i H; cbn [app act_list]; rewrite W by auto; cbn [obind]; [|apply IH, N].
    cbn. unfold mem_set. now rewrite Z.eqb_refl. }
  repeat split.
  - change (scatter_masked zero SimpleLoop hw v p (fun _ => 0) all (to_int_spec all) m) with (simple_loop (scatter_lane zero v p (fun _ => 0)) 0 all m).
    rewrite simple_loop_trace. apply (R [0; 1; 2] m 3 M).
  - cbn [scatter_masked]. rewrite (bit_scan_loop_trace _ 64 _ m [0; 3; 1; 2]) by reflexivity. apply (R [0; 3; 1] m 2 M).
  - change (scatter_masked zero SimpleLoop hw v p (fun _ => 0) some (to_int_spec some) m) with (simple_loop (scatter_lane zero v p (fun _ => 0)) 0 some m).
    rewrite simple_loop_trace. apply (R [0; 1] m 3 M).
  - cbn [scatter_masked]. unfold popcnt_switch. replace (match length v with 16%nat => _ | 8%nat => _ | _ => popcnt4 hw (to_int_spec some) end) with 3 by (destruct hw; reflexivity).
    change (3 =? Z.of_nat (length v)) with false. cbv iota. rewrite (popcnt_cases_trace _ (Z.to_nat 3) (to_int_spec some) 0 m [0; 3; 1]) by reflexivity. apply (R [0; 3] m 1 M).
Qed.

Lemma C25_scatter_zero_index_refuted_main :
  forall (A : Type) (zero : A) hw mask (v : list A) (m m' : memory A) mem idx,
    scatter_masked zero SetIndexZero hw v mem idx mask (to_int_spec mask) m = Some m' -> m' = m.
Proof.
  intros A zero hw mask v m m' mem idx. cbn [scatter_masked]. destruct (gather_all _ _ _ _); [|discriminate]. cbn. congruence.
Qed.
