From Coq Require Import ZArith List Bool Lia.
From Verif.Spec Require Import Seq MaskSpec NativeSpec OperandSpec GatherSpec.
From Verif.Model Require Import Mem SplitSize SimdArray SimdArrayOps BitScan SseMove SseMask GatherScatter.
From Verif.Proof Require Import SeqP SplitSizeP SimdArrayP SimdArrayOpsP SseMoveP SseMaskP BitScanP.
Import ListNotations.
Local Open Scope Z_scope.

Section Gather.
  Context {A : Type} (zero : A).
  Variables (m : memory A) (mem : Z) (idx : Z -> Z).

  Lemma gather_list_ok : forall l v, (forall i, In i l -> 0 <= i < Z.of_nat (length v) /\ m (mem + idx i) <> None) ->
    exists r, act_list (gather_lane m mem idx) l v = Some r /\ length r = length v /\
      forall k, 0 <= k < Z.of_nat (length v) ->
        (In k l -> m (mem + idx k) = Some (znth zero r k)) /\ (~ In k l -> znth zero r k = znth zero v k).
  Proof.
    induction l as [|i l IH]; intros v H.
    - exists v. cbn. repeat split; intros; auto; contradiction.
    - cbn [act_list]. unfold gather_lane at 1. destruct (H i (or_introl eq_refl)) as [Hi Hm].
      destruct (m (mem + idx i)) as [x|] eqn:E; [|congruence]. cbn [obind].
      destruct (IH (list_set v (Z.to_nat i) x)) as (r & E1 & L & R).
      { intros j Hj. rewrite list_set_length. apply H. now right. }
      rewrite list_set_length in *. exists r. split; [exact E1|]. split; [exact L|]. intros k Hk. destruct (R k Hk) as [R1 R2]. split.
      + intros [->|I]; [|auto]. destruct (in_dec Z.eq_dec k l) as [I|N]; [auto|]. rewrite (R2 N), list_set_nth, Z.eqb_refl; auto.
      + intros N. rewrite R2 by (intros I; apply N; now right). rewrite list_set_nth by auto. destruct (Z.eqb_spec k i) as [->|]; [|reflexivity].
        exfalso. apply N. now left.
  Qed.
  Lemma gather_list_none : forall l v, (exists i, In i l /\ m (mem + idx i) = None) -> act_list (gather_lane m mem idx) l v = None.
  Proof.
    induction l as [|i l IH]; intros v (j & Hj & E); [destruct Hj|]. cbn [act_list]. unfold gather_lane at 1.
    destruct (m (mem + idx i)) eqn:E1; [|reflexivity]. cbn [obind]. apply IH. destruct Hj as [->|Hj]; [congruence|]. eauto.
  Qed.

  Lemma sequence_ok : forall n (f : Z -> option A), (forall i, 0 <= i < Z.of_nat n -> f i <> None) ->
    exists r, sequence (tab n f) = Some r /\ length r = n /\ forall i, 0 <= i < Z.of_nat n -> f i = Some (znth zero r i).
  Proof.
    induction n as [|n IH]; intros f H; [exists []; cbn; repeat split; intros; lia|].
    rewrite tab_S. cbn [sequence]. destruct (f 0) as [x|] eqn:E; [|elim (H 0); [lia|assumption]].
    destruct (IH (fun i => f (i + 1))) as (r & E1 & L & R); [intros; apply H; lia|]. rewrite E1. cbn [option_map].
    exists (x :: r). split; [reflexivity|]. split; [cbn; lia|]. intros i Hi. destruct (Z.eq_dec i 0) as [->|N]; [exact E|].
    replace i with (i - 1 + 1) by lia. rewrite znth_cons by lia. apply R. lia.
  Qed.
  Lemma sequence_none : forall n (f : Z -> option A), (exists i, 0 <= i < Z.of_nat n /\ f i = None) -> sequence (tab n f) = None.
  Proof.
    induction n as [|n IH]; intros f (i & Hi & E); [lia|]. rewrite tab_S. cbn [sequence]. destruct (f 0) as [x|] eqn:E0; [|reflexivity].
    rewrite IH; [reflexivity|]. destruct (Z.eq_dec i 0) as [->|N]; [congruence|]. exists (i - 1). split; [lia|]. now replace (i - 1 + 1) with i by lia.
  Qed.

  (** one list of lanes that is the set of the selected ones *)
  Lemma gather_set l sel v : (forall i, In i l <-> 0 <= i < Z.of_nat (length v) /\ sel i = true) ->
    (mapped m mem idx (length v) sel -> exists r, act_list (gather_lane m mem idx) l v = Some r /\ gathered zero m mem idx sel v r) /\
    ((exists i, 0 <= i < Z.of_nat (length v) /\ sel i = true /\ m (mem + idx i) = None) -> act_list (gather_lane m mem idx) l v = None).
  Proof.
    intros H. split.
    - intros M. destruct (gather_list_ok l v) as (r & E & L & R).
      { intros i Hi. apply H in Hi. destruct Hi. split; [lia|]. now apply M. }
      exists r. split; [exact E|]. split; [exact L|]. intros i Hi. destruct (R i Hi) as [R1 R2]. destruct (sel i) eqn:T.
      + apply R1, H. auto.
      + apply R2. intros I. apply H in I. destruct I. congruence.
    - intros (i & Hi & T & N). apply gather_list_none. exists i. split; [|exact N]. now apply H.
  Qed.
  Lemma gather_all_ok v :
    (mapped m mem idx (length v) (fun _ => true) -> exists r, gather_all m mem idx v = Some r /\ gathered zero m mem idx (fun _ => true) v r) /\
    ((exists i, 0 <= i < Z.of_nat (length v) /\ m (mem + idx i) = None) -> gather_all m mem idx v = None).
  Proof.
    split.
    - intros M. destruct (sequence_ok (length v) (fun i => m (mem + idx i))) as (r & E & L & R); [intros; apply M; auto|].
      exists r. split; [exact E|]. split; [exact L|]. exact R.
    - intros H. now apply sequence_none.
  Qed.
End Gather.

Lemma full_mask mask : forallb (fun b => b) mask = true -> forall i, 0 <= i < Z.of_nat (length mask) -> znth false mask i = true.
Proof.
  intros H i Hi. rewrite forallb_forall in H. rewrite znth_in by lia. apply H. apply nth_In. lia.
Qed.
Lemma empty_mask mask : forallb negb mask = true -> set_from 0 mask = [].
Proof.
  intros H. destruct (set_from 0 mask) as [|x l] eqn:E; [reflexivity|]. exfalso.
  assert (I : In x (set_from 0 mask)) by (rewrite E; now left). apply set_from_in in I. destruct I as [Hx T].
  rewrite Z.sub_0_r in T. rewrite znth_in in T by lia. rewrite forallb_forall in H.
  specialize (H (nth (Z.to_nat x) mask false)). rewrite T in H. cbn in H. enough (false = true) by discriminate. apply H. rewrite <- T. apply nth_In. lia.
Qed.

Definition exact_strategy (st : strategy) : bool := match st with SetIndexZero => false | _ => true end.
Definition simd_width (n : nat) : Prop := (n = 2 \/ n = 4 \/ n = 8 \/ n = 16)%nat.

Lemma to_int_testbit mask : forall i, 0 <= i < Z.of_nat (length mask) -> Z.testbit (to_int_spec mask) i = znth false mask i.
Proof.
  induction mask as [|b mask IH]; intros i Hi; [cbn in Hi; lia|]. cbn [to_int_spec length] in *.
  destruct (Z.eq_dec i 0) as [->|N].
  - change (znth false (b :: mask) 0) with b. destruct b; [rewrite Z.add_comm; apply Z.testbit_odd_0|apply Z.testbit_even_0].
  - replace i with (Z.succ (i - 1)) by lia. rewrite znth_S by lia. rewrite <- IH by lia.
    destruct b; [rewrite Z.add_comm; apply Z.testbit_odd_succ|apply Z.testbit_even_succ]; lia.
Qed.

(** every strategy but SetIndexZero visits exactly the selected entries *)
Definition is_order (mask : list bool) (l : list Z) : Prop := forall i, In i l <-> 0 <= i < Z.of_nat (length mask) /\ znth false mask i = true.

Lemma bit_scan_order mask : (length mask <= 31)%nat ->
  exists l, is_order mask l /\ forall S (act : Z -> S -> option S) s, bit_scan_loop act 64 (int_to_size_t (to_int_spec mask)) s = act_list act l s.
Proof.
  intros L. pose proof (to_int_bound mask) as B.
  assert (P : 2 ^ Z.of_nat (length mask) <= 2 ^ 31) by (apply Z.pow_le_mono_r; lia).
  rewrite int_small by lia.
  destruct (bit_scan_trace_ok 64 (to_int_spec mask)) as (l & E & H).
  { assert (2 ^ 31 < 2 ^ Z.of_nat 64) by reflexivity. lia. }
  exists l. split; [|intros S act s; now apply bit_scan_loop_trace].
  intros i. rewrite H. split; intros [Hi T].
  - destruct (Z.lt_ge_cases i (Z.of_nat (length mask))) as [Hl|Hg]; [rewrite to_int_testbit in T by lia; auto|].
    exfalso. destruct (Z.eq_dec (to_int_spec mask) 0) as [Z0|NZ]; [rewrite Z0, Z.testbit_0_l in T; discriminate|].
    rewrite Z.bits_above_log2 in T; [discriminate|lia|]. apply Z.log2_lt_pow2; [lia|].
    apply Z.lt_le_trans with (2 ^ Z.of_nat (length mask)); [lia|]. apply Z.pow_le_mono_r; lia.
  - split; [lia|]. rewrite to_int_testbit; auto.
Qed.
Lemma popcnt_order hw mask : simd_width (length mask) ->
  (popcnt_of hw (length mask) (to_int_spec mask) = Z.of_nat (length mask) /\ forallb (fun b => b) mask = true) \/
  (popcnt_of hw (length mask) (to_int_spec mask) <> Z.of_nat (length mask) /\
   exists l, is_order mask l /\ forall S (act : Z -> S -> option S) s,
     popcnt_cases act (Z.to_nat (popcnt_of hw (length mask) (to_int_spec mask))) (to_int_spec mask) 0 s = act_list act l s).
Proof.
  intros H. pose proof (pop_check_ok hw (length mask) mask H eq_refl) as C. unfold pop_check in C.
  destruct (Z.eqb_spec (popcnt_of hw (length mask) (to_int_spec mask)) (Z.of_nat (length mask))) as [E|N]; [left; auto|right].
  split; [exact N|]. destruct (popcnt_trace _ _ 0) as [l|] eqn:T; [|discriminate]. exists l. split.
  - intros i. apply (same_set_ok _ _ _ C).
  - intros S act s. now apply popcnt_cases_trace.
Qed.
Lemma simple_order mask : is_order mask (set_from 0 mask).
Proof. intros i. rewrite set_from_in, Z.sub_0_r. cbn. reflexivity. Qed.

Section GatherMasked.
  Context {A : Type} (zero : A).
  Variables (m : memory A) (mem : Z) (idx : Z -> Z).

  Lemma gathered_full sel v r : (forall i, 0 <= i < Z.of_nat (length v) -> sel i = true) ->
    gathered zero m mem idx (fun _ => true) v r -> gathered zero m mem idx sel v r.
  Proof. intros H [L R]. split; [exact L|]. intros i Hi. rewrite H by auto. now apply R. Qed.

  Lemma gather_masked_ok st hw mask v : exact_strategy st = true -> simd_width (length v) -> length mask = length v ->
    let sel := znth false mask in
    (mapped m mem idx (length v) sel -> exists r, gather_masked st hw m mem idx mask (to_int_spec mask) v = Some r /\ gathered zero m mem idx sel v r) /\
    ((exists i, 0 <= i < Z.of_nat (length v) /\ sel i = true /\ m (mem + idx i) = None) -> gather_masked st hw m mem idx mask (to_int_spec mask) v = None).
  Proof.
    intros Hst Hw L sel.
    assert (L31 : (length mask <= 31)%nat) by (unfold simd_width in Hw; lia).
    destruct st; try discriminate; cbn [gather_masked].
    - pose proof (simple_order mask) as O. unfold is_order in O. rewrite L in O. destruct (forallb negb mask) eqn:E.
      + apply empty_mask in E. rewrite E in O. split; [intros _; exists v; split; [reflexivity|]|].
        * split; [reflexivity|]. intros i Hi. destruct (sel i) eqn:T; [|reflexivity]. exfalso. apply (proj2 (O i)). auto.
        * intros (i & Hi & T & _). exfalso. apply (proj2 (O i)). auto.
      + rewrite simple_loop_trace. now apply gather_set.
    - destruct (bit_scan_order mask L31) as (l & O & E). unfold is_order in O. rewrite L in O. rewrite E. now apply gather_set.
    - unfold popcnt_switch. fold (popcnt_of hw (length v) (to_int_spec mask)). rewrite <- L in *. destruct (popcnt_order hw mask Hw) as [[E F]|[N (l & O & E)]].
      + rewrite E, Z.eqb_refl. pose proof (full_mask mask F) as FM. destruct (gather_all_ok zero m mem idx v) as [G1 G2]. rewrite L in *. split.
        * intros M. destruct G1 as (r & E1 & R); [intros i Hi _; apply M; auto|]. exists r. split; [exact E1|]. now apply gathered_full.
        * intros (i & Hi & _ & Ni). apply G2. eauto.
      + destruct (Z.eqb_spec (popcnt_of hw (length mask) (to_int_spec mask)) (Z.of_nat (length mask))); [contradiction|]. rewrite E, L in *.
        unfold is_order in O. rewrite L in O. now apply gather_set.
  Qed.
  Lemma gather_zero_ok hw mask v : length mask = length v ->
    let sel := znth false mask in
    mapped m mem idx (length v) sel -> m mem <> None ->
    exists r, gather_masked SetIndexZero hw m mem idx mask (to_int_spec mask) v = Some r /\ gathered zero m mem idx sel v r.
  Proof.
    intros L sel M M0. cbn [gather_masked]. destruct (gather_all_ok zero m mem (fun i => if sel i then idx i else 0) v) as [G _].
    destruct G as (r & E & Lr & R).
    { intros i Hi _. cbn. destruct (sel i) eqn:T; [now apply M|]. now rewrite Z.add_0_r. }
    fold sel. rewrite E. cbn [obind]. eexists. split; [reflexivity|]. split; [rewrite map3_length; lia|].
    intros i Hi. rewrite (znth_map3 _ _ _ _ _ false zero zero zero) by lia. fold (sel i). specialize (R i Hi). cbn in R. unfold sel in *. destruct (znth false mask i); auto.
  Qed.
End GatherMasked.

(** * SimdArray *)
Lemma index_split (native : nat -> bool) n x : native n = false -> (2 <= n)%nat -> index_ok n x ->
  index_ok (left_size n) (index_lo x) /\ index_ok (right_size n) (index_hi (left_size n) x) /\
  (forall i, 0 <= i < Z.of_nat (left_size n) -> index_at (index_lo x) i = index_at x i) /\
  (forall i, 0 <= i < Z.of_nat (right_size n) -> index_at (index_hi (left_size n) x) i = index_at x (i + Z.of_nat (left_size n))).
Proof.
  intros N H2 H. destruct (right_left n H2) as [R1 R2]. destruct x as [o|a k]; cbn [index_ok index_at index_lo index_hi] in *.
  - destruct (split_ok native n o N H2 H). split; [assumption|]. split; [assumption|]. split; intros i Hi; now apply (split_at native 0 n o i N H2 H).
  - split; [lia|]. split; [lia|]. split; intros i Hi; [reflexivity|]. f_equal. lia.
Qed.
Lemma index_get_at n x i : (1 <= n)%nat -> index_ok n x -> 0 <= i < Z.of_nat n -> index_get n x i = index_at x i.
Proof. intros Hn H Hi. destruct x; cbn; [now apply (elems_at 0)|reflexivity]. Qed.

Lemma gathered_app {A} (zero : A) m mem idx sel v0 v1 r0 r1 :
  gathered zero m mem idx sel v0 r0 ->
  gathered zero m mem (fun i => idx (i + Z.of_nat (length v0))) (fun i => sel (i + Z.of_nat (length v0))) v1 r1 ->
  gathered zero m mem idx sel (v0 ++ v1) (r0 ++ r1).
Proof.
  intros [L0 R0] [L1 R1]. split; [rewrite !app_length; lia|]. rewrite app_length. intros i Hi. rewrite !znth_app, L0.
  destruct (Z.lt_ge_cases i (Z.of_nat (length v0))) as [H|H].
  - destruct (Z.ltb_spec i (Z.of_nat (length v0))); [|lia]. apply R0. lia.
  - destruct (Z.ltb_spec i (Z.of_nat (length v0))); [lia|]. specialize (R1 (i - Z.of_nat (length v0)) ltac:(lia)). cbv beta in R1.
    now replace (i - Z.of_nat (length v0) + Z.of_nat (length v0)) with i in R1 by lia.
Qed.
Lemma gathered_ext {A} (zero : A) m mem idx idx' sel sel' v r : (forall i, 0 <= i < Z.of_nat (length v) -> idx i = idx' i /\ sel i = sel' i) ->
  gathered zero m mem idx sel v r -> gathered zero m mem idx' sel' v r.
Proof. intros H [L R]. split; [exact L|]. intros i Hi. destruct (H i Hi) as [<- <-]. now apply R. Qed.

Section Arrays.
  Context {A : Type} (zero : A) (native : nat -> bool).
  Hypothesis Hw : widths_ok native.

  Definition ngather_ok (g : memory A -> Z -> (Z -> Z) -> list A -> option (list A)) : Prop :=
    forall m mem idx v, native (length v) = true ->
      (mapped m mem idx (length v) (fun _ => true) -> exists r, g m mem idx v = Some r /\ gathered zero m mem idx (fun _ => true) v r) /\
      ((exists i, 0 <= i < Z.of_nat (length v) /\ m (mem + idx i) = None) -> g m mem idx v = None).
  Definition ngather_masked_ok (g : memory A -> Z -> (Z -> Z) -> list bool -> list A -> option (list A)) : Prop :=
    forall m mem idx ks v, native (length v) = true -> length ks = length v ->
      (mapped m mem idx (length v) (znth false ks) -> exists r, g m mem idx ks v = Some r /\ gathered zero m mem idx (znth false ks) v r) /\
      ((exists i, 0 <= i < Z.of_nat (length v) /\ znth false ks i = true /\ m (mem + idx i) = None) -> g m mem idx ks v = None).

  Lemma gather_ok g m mem : ngather_ok g -> forall n t, wf native n t -> forall x, index_ok n x ->
    (mapped m mem (index_at x) n (fun _ => true) ->
       exists r, gather g m mem x t = Some r /\ wf native n r /\ gathered zero m mem (index_at x) (fun _ => true) (to_list t) (to_list r)) /\
    ((exists i, 0 <= i < Z.of_nat n /\ m (mem + index_at x i) = None) -> gather g m mem x t = None).
  Proof.
    intros Hg n t W. induction W as [n xs N L|n l r N Wl IHl Wr IHr]; intros x Hx.
    - subst n. pose proof (native_pos native Hw _ N) as Hn. cbn [gather to_list].
      assert (IE : forall i, 0 <= i < Z.of_nat (length xs) -> index_get (length xs) x i = index_at x i) by (intros; now apply index_get_at).
      destruct (Hg m mem (index_get (length xs) x) xs N) as [G1 G2]. split.
      + intros M. destruct G1 as (r & E & G); [intros i Hi _; rewrite IE by auto; now apply M|]. rewrite E. cbn [option_map].
        exists (Leaf r). split; [reflexivity|]. pose proof (proj1 G) as LR. split; [constructor; [exact N|exact LR]|].
        eapply gathered_ext; [|exact G]. intros i Hi. now rewrite IE.
      + intros (i & Hi & E). rewrite G2; [reflexivity|]. exists i. rewrite IE; auto.
    - destruct (wf_size native Hw _ _ (wf_node native n l r N Wl Wr)) as (_ & _ & H1).
      pose proof (not_native_ge2 native Hw n H1 N) as H2.
      destruct (right_left n H2) as [R1 R2].
      destruct (index_split native n x N H2 Hx) as (X0 & X1 & E0 & E1).
      cbn [gather to_list]. destruct (wf_size native Hw _ _ Wl) as (Sl & Ll & _). destruct (wf_size native Hw _ _ Wr) as (_ & Lr & _). rewrite Sl.
      destruct (IHl _ X0) as [A1 A2]. destruct (IHr _ X1) as [B1 B2]. split.
      + intros M. destruct A1 as (r0 & Ea & Wa & Ga). { intros i Hi _. rewrite E0 by lia. apply M; [lia|reflexivity]. }
        destruct B1 as (r1 & Eb & Wb & Gb). { intros i Hi _. rewrite E1 by lia. apply M; [lia|reflexivity]. }
        rewrite Ea, Eb. cbn [obind]. exists (Node r0 r1). split; [reflexivity|]. split; [now constructor|]. cbn [to_list].
        apply gathered_app.
        * eapply gathered_ext; [|exact Ga]. intros i Hi. split; [apply E0; lia|reflexivity].
        * eapply gathered_ext; [|exact Gb]. intros i Hi. split; [|reflexivity]. cbv beta. rewrite Ll. apply E1. lia.
      + intros (i & Hi & E). destruct (Z.lt_ge_cases i (Z.of_nat (left_size n))) as [H|H].
        * rewrite A2; [reflexivity|]. exists i. split; [lia|]. now rewrite E0 by lia.
        * destruct (gather g m mem (index_lo x) l); [|reflexivity]. cbn [obind]. rewrite B2; [reflexivity|].
          exists (i - Z.of_nat (left_size n)). split; [lia|]. rewrite E1 by lia. now replace (i - Z.of_nat (left_size n) + Z.of_nat (left_size n)) with i by lia.
  Qed.

  Lemma znth_app_lo {B} (d : B) xs ys i : 0 <= i < Z.of_nat (length xs) -> znth d (xs ++ ys) i = znth d xs i.
  Proof. intros H. rewrite znth_app. destruct (Z.ltb_spec i (Z.of_nat (length xs))); [reflexivity|lia]. Qed.
  Lemma znth_app_hi {B} (d : B) xs ys i : 0 <= i -> znth d (xs ++ ys) (i + Z.of_nat (length xs)) = znth d ys i.
  Proof. intros H. rewrite znth_app. destruct (Z.ltb_spec (i + Z.of_nat (length xs)) (Z.of_nat (length xs))); [lia|]. f_equal. lia. Qed.

  Lemma gather_mask_ok g m mem : ngather_masked_ok g -> forall n t, wf native n t -> forall k x, wf native n k -> index_ok n x ->
    let sel := znth false (to_list k) in
    (mapped m mem (index_at x) n sel ->
       exists r, gather_mask g m mem x k t = Some r /\ wf native n r /\ gathered zero m mem (index_at x) sel (to_list t) (to_list r)) /\
    ((exists i, 0 <= i < Z.of_nat n /\ sel i = true /\ m (mem + index_at x i) = None) -> gather_mask g m mem x k t = None).
  Proof.
    intros Hg n t W. induction W as [n xs N L|n l r N Wl IHl Wr IHr]; intros k x Wk Hx.
    - subst n. pose proof (native_pos native Hw _ N) as Hn. inversion Wk as [n' ks N' Lk|n' k0 k1 N' W0 W1]; subst; [|congruence]. cbn [gather_mask to_list].
      assert (IE : forall i, 0 <= i < Z.of_nat (length xs) -> index_get (length xs) x i = index_at x i) by (intros; now apply index_get_at).
      destruct (Hg m mem (index_get (length xs) x) ks xs N Lk) as [G1 G2]. split.
      + intros M. destruct G1 as (r & E & G); [intros i Hi T; rewrite IE by auto; now apply M|]. rewrite E. cbn [option_map].
        exists (Leaf r). split; [reflexivity|]. pose proof (proj1 G) as LR. split; [constructor; [exact N|exact LR]|].
        eapply gathered_ext; [|exact G]. intros i Hi. now rewrite IE.
      + intros (i & Hi & T & E). rewrite G2; [reflexivity|]. exists i. rewrite IE; auto.
    - inversion Wk as [n' ks N' Lk|n' k0 k1 N' W0 W1]; subst; [congruence|].
      destruct (wf_size native Hw _ _ (wf_node native n l r N Wl Wr)) as (_ & _ & H1).
      pose proof (not_native_ge2 native Hw n H1 N) as H2.
      destruct (right_left n H2) as [R1 R2].
      destruct (index_split native n x N H2 Hx) as (X0 & X1 & E0 & E1).
      cbn [gather_mask to_list]. destruct (wf_size native Hw _ _ Wl) as (Sl & Ll & _). destruct (wf_size native Hw _ _ Wr) as (_ & Lr & _). rewrite Sl.
      destruct (wf_size native Hw _ _ W0) as (_ & L0 & _). destruct (wf_size native Hw _ _ W1) as (_ & L1 & _).
      assert (K0 : forall i, 0 <= i < Z.of_nat (left_size n) -> znth false (to_list k0) i = znth false (to_list k0 ++ to_list k1) i)
        by (intros; rewrite znth_app_lo; auto; lia).
      assert (K1 : forall i, 0 <= i -> znth false (to_list k1) i = znth false (to_list k0 ++ to_list k1) (i + Z.of_nat (left_size n)))
        by (intros; rewrite <- L0, znth_app_hi; auto; lia).
      destruct (IHl _ _ W0 X0) as [A1 A2]. destruct (IHr _ _ W1 X1) as [B1 B2]. split.
      + intros M. destruct A1 as (r0 & Ea & Wa & Ga). { intros i Hi T. rewrite E0 by lia. apply M; [lia|]. now rewrite <- K0. }
        destruct B1 as (r1 & Eb & Wb & Gb). { intros i Hi T. rewrite E1 by lia. apply M; [lia|]. rewrite <- K1; [exact T|lia]. }
        rewrite Ea, Eb. cbn [obind]. exists (Node r0 r1). split; [reflexivity|]. split; [now constructor|]. cbn [to_list].
        apply gathered_app.
        * eapply gathered_ext; [|exact Ga]. intros i Hi. split; [apply E0; lia|apply K0; lia].
        * eapply gathered_ext; [|exact Gb]. intros i Hi. cbv beta. rewrite Ll. split; [apply E1; lia|apply K1; lia].
      + intros (i & Hi & T & E). destruct (Z.lt_ge_cases i (Z.of_nat (left_size n))) as [H|H].
        * rewrite A2; [reflexivity|]. exists i. split; [lia|]. split; [now rewrite K0 by lia|]. now rewrite E0 by lia.
        * destruct (gather_mask g m mem (index_lo x) k0 l); [|reflexivity]. cbn [obind]. rewrite B2; [reflexivity|].
          exists (i - Z.of_nat (left_size n)). split; [lia|]. rewrite K1, E1 by lia. now replace (i - Z.of_nat (left_size n) + Z.of_nat (left_size n)) with i by lia.
  Qed.
End Arrays.

(** * scatter *)
Definition scattered_gen {A} (last : bool) (zero : A) (v : list A) (mem : Z) (idx : Z -> Z) (sel : Z -> bool) (m m' : memory A) : Prop :=
  forall a,
    (m' a = m a /\ forall i, 0 <= i < Z.of_nat (length v) -> sel i = true -> mem + idx i <> a) \/
    (exists i, 0 <= i < Z.of_nat (length v) /\ sel i = true /\ mem + idx i = a /\ m' a = Some (znth zero v i) /\
       (last = true -> forall j, i < j < Z.of_nat (length v) -> sel j = true -> mem + idx j <> a)).
Lemma scattered_of_gen {A} (zero : A) v mem idx sel m m' last : scattered_gen last zero v mem idx sel m m' -> scattered zero v mem idx sel m m'.
Proof. intros H a. destruct (H a) as [|(i & ? & ? & ? & ? & _)]; [left; assumption|right; eauto 6]. Qed.
Lemma scattered_last_of_gen {A} (zero : A) v mem idx sel m m' : scattered_gen true zero v mem idx sel m m' -> scattered_last zero v mem idx sel m m'.
Proof. intros H a. destruct (H a) as [|(i & ? & ? & ? & ? & L)]; [left; assumption|right; exists i; auto 7]. Qed.
Lemma scattered_gen_weak {A} (zero : A) v mem idx sel m m' last : scattered_gen last zero v mem idx sel m m' -> scattered_gen false zero v mem idx sel m m'.
Proof. intros H a. destruct (H a) as [|(i & ? & ? & ? & ? & _)]; [left; assumption|right]. exists i. repeat (split; [assumption|]). discriminate. Qed.

Lemma scattered_ext {A} last (zero : A) v mem idx idx' sel sel' m m' : (forall i, 0 <= i < Z.of_nat (length v) -> idx i = idx' i /\ sel i = sel' i) ->
  scattered_gen last zero v mem idx sel m m' -> scattered_gen last zero v mem idx' sel' m m'.
Proof.
  intros H S a. destruct (S a) as [[E N]|(i & Hi & T & Ea & Em & L)]; [left|right].
  - split; [exact E|]. intros i Hi T. destruct (H i Hi) as [<- Es]. apply N; [auto|]. now rewrite Es.
  - exists i. destruct (H i Hi) as [Ei Es]. rewrite <- Ei, <- Es. repeat (split; [assumption|]). intros Hl j Hj Tj.
    destruct (H j ltac:(lia)) as [<- Ej]. apply L; auto. now rewrite Ej.
Qed.
Lemma scattered_app {A} last (zero : A) v0 v1 mem idx sel m m1 m2 :
  scattered_gen last zero v0 mem idx sel m m1 ->
  scattered_gen last zero v1 mem (fun i => idx (i + Z.of_nat (length v0))) (fun i => sel (i + Z.of_nat (length v0))) m1 m2 ->
  scattered_gen last zero (v0 ++ v1) mem idx sel m m2.
Proof.
  intros S0 S1 a. rewrite app_length. set (n0 := Z.of_nat (length v0)) in *.
  destruct (S1 a) as [[E1 N1]|(i & Hi & T & Ea & Em & L)].
  - destruct (S0 a) as [[E0 N0]|(i & Hi & T & Ea & Em & L)].
    + left. split; [congruence|]. intros i Hi T. destruct (Z.lt_ge_cases i n0) as [H|H]; [apply N0; auto; lia|].
      specialize (N1 (i - n0) ltac:(lia)). cbv beta in N1. replace (i - n0 + n0) with i in N1 by lia. auto.
    + right. exists i. split; [lia|]. split; [exact T|]. split; [exact Ea|]. split; [rewrite E1, Em, znth_app_lo; auto|].
      intros Hl j Hj Tj. destruct (Z.lt_ge_cases j n0) as [H|H]; [apply L; auto; lia|].
      specialize (N1 (j - n0) ltac:(lia)). cbv beta in N1. replace (j - n0 + n0) with j in N1 by lia. auto.
  - right. exists (i + n0). cbv beta in *. split; [lia|]. split; [exact T|]. split; [exact Ea|]. split; [rewrite Em; unfold n0; rewrite znth_app_hi; auto; lia|].
    intros Hl j Hj Tj. specialize (L Hl (j - n0) ltac:(lia)). cbv beta in L. replace (j - n0 + n0) with j in L by lia. auto.
Qed.
Lemma scattered_dom {A} last (zero : A) v mem idx sel m m' : mapped m mem idx (length v) sel -> scattered_gen last zero v mem idx sel m m' ->
  forall a, m' a = None <-> m a = None.
Proof.
  intros M S a. destruct (S a) as [[E _]|(i & Hi & T & Ea & Em & _)]; [now rewrite E|]. specialize (M i Hi T). rewrite Ea in M. rewrite Em. intuition congruence.
Qed.

Section Scatter.
  Context {A : Type} (zero : A).
  Variables (v : list A) (mem : Z) (idx : Z -> Z).
  Notation lane := (scatter_lane zero v mem idx).

  (** after visiting the lanes l, an address holds the value of the last lane in l that hits it *)
  Lemma scatter_list_ok : forall l (m : memory A), (forall i, In i l -> m (mem + idx i) <> None) ->
    exists m', act_list lane l m = Some m' /\ forall a,
      (m' a = m a /\ forall i, In i l -> mem + idx i <> a) \/
      (exists l1 i l2, l = l1 ++ i :: l2 /\ mem + idx i = a /\ m' a = Some (znth zero v i) /\ forall j, In j l2 -> mem + idx j <> a).
  Proof.
    induction l as [|i l IH]; intros m H.
    - exists m. split; [reflexivity|]. intros a. left. split; [reflexivity|]. intros i [].
    - cbn [act_list]. unfold scatter_lane at 1, mem_write. pose proof (H i (or_introl eq_refl)) as Hm.
      destruct (m (mem + idx i)) as [x0|] eqn:E; [|congruence]. cbn [obind].
      destruct (IH (mem_set m (mem + idx i) (znth zero v i))) as (m' & E1 & R).
      { intros j Hj. unfold mem_set. destruct (Z.eqb_spec (mem + idx j) (mem + idx i)); [discriminate|]. apply H. now right. }
      exists m'. split; [exact E1|]. intros a. destruct (R a) as [[Ea N]|(l1 & k & l2 & -> & Ea & Em & N)].
      + unfold mem_set in Ea. destruct (Z.eqb_spec a (mem + idx i)) as [Eq|Na].
        * subst a. right. exists [], i, l. auto.
        * left. split; [exact Ea|]. intros j [<-|Hj]; auto.
      + right. exists (i :: l1), k, l2. auto.
  Qed.
  Lemma scatter_list_none : forall l (m : memory A), (exists i, In i l /\ m (mem + idx i) = None) -> act_list lane l m = None.
  Proof.
    induction l as [|i l IH]; intros m (j & Hj & E); [destruct Hj|]. cbn [act_list]. unfold scatter_lane at 1, mem_write.
    destruct (m (mem + idx i)) eqn:E1; [|reflexivity]. cbn [obind]. apply IH. destruct Hj as [->|Hj]; [congruence|]. exists j. split; [exact Hj|].
    unfold mem_set. destruct (Z.eqb_spec (mem + idx j) (mem + idx i)) as [X|]; [|exact E]. rewrite X in E. congruence.
  Qed.
  Lemma set_from_sorted : forall mask o l1 i l2, set_from o mask = l1 ++ i :: l2 -> forall j, In j (set_from o mask) -> i < j -> In j l2.
  Proof.
    induction mask as [|b mask IH]; intros o l1 i l2 E j Hj Lt; [now destruct l1|]. cbn [set_from] in *.
    assert (LB : forall x, In x (set_from (o + 1) mask) -> o < x) by (intros x Hx; apply set_from_in in Hx; lia).
    destruct b; cbn [app] in *; [|eapply IH; eauto].
    destruct l1 as [|x l1]; cbn [app] in E; injection E as -> E.
    - subst l2. destruct Hj as [<-|Hj]; [lia|exact Hj].
    - eapply IH; eauto. destruct Hj as [<-|Hj]; [|exact Hj]. assert (In i (set_from (x + 1) mask)) by (rewrite E; apply in_elt). apply LB in H. lia.
  Qed.
  Definition ascending (l : list Z) : Prop := forall l1 i l2, l = l1 ++ i :: l2 -> forall j, In j l -> i < j -> In j l2.

  Lemma scatter_set last l sel (m : memory A) : (forall i, In i l <-> 0 <= i < Z.of_nat (length v) /\ sel i = true) ->
    (last = true -> ascending l) ->
    (mapped m mem idx (length v) sel -> exists m', act_list lane l m = Some m' /\ scattered_gen last zero v mem idx sel m m') /\
    ((exists i, 0 <= i < Z.of_nat (length v) /\ sel i = true /\ m (mem + idx i) = None) -> act_list lane l m = None).
  Proof.
    intros H Asc. split.
    - intros M. destruct (scatter_list_ok l m) as (m' & E & R).
      { intros i Hi. apply H in Hi. destruct Hi. now apply M. }
      exists m'. split; [exact E|]. intros a. destruct (R a) as [[Ea N]|(l1 & i & l2 & El & Ea & Em & N)].
      + left. split; [exact Ea|]. intros i Hi T. apply N, H. auto.
      + right. assert (Ii : In i l) by (rewrite El; apply in_elt). destruct (proj1 (H i) Ii) as [Hi T]. exists i. repeat (split; [assumption|]).
        intros Hl j Hj Tj. apply N. eapply (Asc Hl); [exact El| |lia]. apply H. split; [lia|exact Tj].
    - intros (i & Hi & T & N). apply scatter_list_none. exists i. split; [|exact N]. now apply H.
  Qed.
  Lemma filter_id {B} (f : B -> bool) l : (forall x, In x l -> f x = true) -> filter f l = l.
  Proof. induction l as [|x l IH]; intros H; [reflexivity|]. cbn. rewrite H by now left. f_equal. apply IH. intros; apply H. now right. Qed.
  Lemma scatter_all_eq (m : memory A) : scatter_all zero v mem idx m = act_list lane (set_from 0 (repeat true (length v))) m.
  Proof.
    unfold scatter_all. f_equal. rewrite <- true_indices_from. unfold true_indices. rewrite repeat_length. symmetry. apply filter_id. intros x Hx. unfold tab in Hx. apply in_map_iff in Hx. destruct Hx as (k & <- & Hk). apply in_seq in Hk. apply znth_repeat. lia.
  Qed.
  Lemma scatter_all_ok (m : memory A) :
    (mapped m mem idx (length v) (fun _ => true) -> exists m', scatter_all zero v mem idx m = Some m' /\ scattered_gen true zero v mem idx (fun _ => true) m m') /\
    ((exists i, 0 <= i < Z.of_nat (length v) /\ m (mem + idx i) = None) -> scatter_all zero v mem idx m = None).
  Proof.
    rewrite scatter_all_eq.
    destruct (scatter_set true (set_from 0 (repeat true (length v))) (fun _ => true) m) as [S1 S2].
    - intros i. rewrite (simple_order (repeat true (length v)) i), repeat_length. split; intros [Hi _]; (split; [exact Hi|]); [reflexivity|]. apply znth_repeat. lia.
    - intros _ l1 i l2 E j Hj Lt. eapply set_from_sorted; eauto.
    - split; [exact S1|]. intros (i & Hi & N). apply S2. eauto.
  Qed.

  Lemma scatter_masked_ok st hw mask (m : memory A) : exact_strategy st = true -> simd_width (length v) -> length mask = length v ->
    let sel := znth false mask in
    let last := match st with SimpleLoop => true | _ => false end in
    (mapped m mem idx (length v) sel -> exists m', scatter_masked zero st hw v mem idx mask (to_int_spec mask) m = Some m' /\ scattered_gen last zero v mem idx sel m m') /\
    ((exists i, 0 <= i < Z.of_nat (length v) /\ sel i = true /\ m (mem + idx i) = None) -> scatter_masked zero st hw v mem idx mask (to_int_spec mask) m = None).
  Proof.
    intros Hst Hw L sel last.
    assert (L31 : (length mask <= 31)%nat) by (unfold simd_width in Hw; lia).
    destruct st; try discriminate; cbn [scatter_masked].
    - pose proof (simple_order mask) as O. unfold is_order in O. rewrite L in O. destruct (forallb negb mask) eqn:E.
      + apply empty_mask in E. rewrite E in O. split; [intros _; exists m; split; [reflexivity|]|].
        * intros a. left. split; [reflexivity|]. intros i Hi T. exfalso. apply (proj2 (O i)). auto.
        * intros (i & Hi & T & _). exfalso. apply (proj2 (O i)). auto.
      + rewrite simple_loop_trace. apply scatter_set; [exact O|]. intros _ l1 i l2 El j Hj Lt. eapply set_from_sorted; eauto.
    - destruct (bit_scan_order mask L31) as (l & O & E). unfold is_order in O. rewrite L in O. rewrite E. apply scatter_set; [exact O|discriminate].
    - unfold popcnt_switch. fold (popcnt_of hw (length v) (to_int_spec mask)). rewrite <- L in *. destruct (popcnt_order hw mask Hw) as [[E F]|[N (l & O & E)]].
      + rewrite E, Z.eqb_refl. pose proof (full_mask mask F) as FM. destruct (scatter_all_ok m) as [G1 G2]. rewrite L in *. split.
        * intros M. destruct G1 as (r & E1 & R); [intros i Hi _; apply M; auto|]. exists r. split; [exact E1|]. apply scattered_gen_weak in R.
          eapply scattered_ext; [|exact R]. intros i Hi. split; [reflexivity|]. symmetry. now apply FM.
        * intros (i & Hi & _ & Ni). apply G2. eauto.
      + destruct (Z.eqb_spec (popcnt_of hw (length mask) (to_int_spec mask)) (Z.of_nat (length mask))); [contradiction|]. rewrite E, L in *.
        unfold is_order in O. rewrite L in O. apply scatter_set; [exact O|discriminate].
  Qed.
End Scatter.

Section ScatterArrays.
  Context {A : Type} (zero : A) (native : nat -> bool).
  Hypothesis Hw : widths_ok native.

  Definition nscatter_ok (last : bool) (g : list A -> Z -> (Z -> Z) -> memory A -> option (memory A)) : Prop :=
    forall m mem idx v, native (length v) = true ->
      (mapped m mem idx (length v) (fun _ => true) -> exists m', g v mem idx m = Some m' /\ scattered_gen last zero v mem idx (fun _ => true) m m') /\
      ((exists i, 0 <= i < Z.of_nat (length v) /\ m (mem + idx i) = None) -> g v mem idx m = None).
  Definition nscatter_masked_ok (last : bool) (g : list A -> Z -> (Z -> Z) -> list bool -> memory A -> option (memory A)) : Prop :=
    forall m mem idx ks v, native (length v) = true -> length ks = length v ->
      (mapped m mem idx (length v) (znth false ks) -> exists m', g v mem idx ks m = Some m' /\ scattered_gen last zero v mem idx (znth false ks) m m') /\
      ((exists i, 0 <= i < Z.of_nat (length v) /\ znth false ks i = true /\ m (mem + idx i) = None) -> g v mem idx ks m = None).

  Lemma scatter_mask_ok last g mem : nscatter_masked_ok last g -> forall n t, wf native n t -> forall k x m, wf native n k -> index_ok n x ->
    let sel := znth false (to_list k) in
    (mapped m mem (index_at x) n sel ->
       exists m', scatter_mask g t mem x k m = Some m' /\ scattered_gen last zero (to_list t) mem (index_at x) sel m m') /\
    ((exists i, 0 <= i < Z.of_nat n /\ sel i = true /\ m (mem + index_at x i) = None) -> scatter_mask g t mem x k m = None).
  Proof.
    intros Hg n t W. induction W as [n xs N L|n l r N Wl IHl Wr IHr]; intros k x m Wk Hx.
    - subst n. pose proof (native_pos native Hw _ N) as Hn. inversion Wk as [n' ks N' Lk|n' k0 k1 N' W0 W1]; subst; [|congruence]. cbn [scatter_mask to_list].
      assert (IE : forall i, 0 <= i < Z.of_nat (length xs) -> index_get (length xs) x i = index_at x i) by (intros; now apply index_get_at).
      destruct (Hg m mem (index_get (length xs) x) ks xs N Lk) as [G1 G2]. split.
      + intros M. destruct G1 as (r & E & G); [intros i Hi T; rewrite IE by auto; now apply M|]. exists r. split; [exact E|].
        eapply scattered_ext; [|exact G]. intros i Hi. now rewrite IE.
      + intros (i & Hi & T & E). apply G2. exists i. rewrite IE; auto.
    - inversion Wk as [n' ks N' Lk|n' k0 k1 N' W0 W1]; subst; [congruence|].
      destruct (wf_size native Hw _ _ (wf_node native n l r N Wl Wr)) as (_ & _ & H1).
      pose proof (not_native_ge2 native Hw n H1 N) as H2.
      destruct (right_left n H2) as [R1 R2].
      destruct (index_split native n x N H2 Hx) as (X0 & X1 & E0 & E1).
      cbn [scatter_mask to_list]. destruct (wf_size native Hw _ _ Wl) as (Sl & Ll & _). destruct (wf_size native Hw _ _ Wr) as (_ & Lr & _). rewrite Sl.
      destruct (wf_size native Hw _ _ W0) as (_ & L0 & _). destruct (wf_size native Hw _ _ W1) as (_ & L1 & _).
      assert (K0 : forall i, 0 <= i < Z.of_nat (left_size n) -> znth false (to_list k0) i = znth false (to_list k0 ++ to_list k1) i)
        by (intros; rewrite znth_app_lo; auto; lia).
      assert (K1 : forall i, 0 <= i -> znth false (to_list k1) i = znth false (to_list k0 ++ to_list k1) (i + Z.of_nat (left_size n)))
        by (intros; rewrite <- L0, znth_app_hi; auto; lia).
      destruct (IHl _ _ m W0 X0) as [A1 A2].
      assert (M0 : mapped m mem (index_at x) n (znth false (to_list k0 ++ to_list k1)) -> mapped m mem (index_at (index_lo x)) (left_size n) (znth false (to_list k0))).
      { intros M i Hi T. rewrite E0 by lia. apply M; [lia|]. now rewrite <- K0. }
      split.
      + intros M. destruct (A1 (M0 M)) as (m1 & Ea & Ga).
        assert (D : forall a, m1 a = None <-> m a = None) by (eapply scattered_dom; [|exact Ga]; rewrite Ll; now apply M0).
        destruct (proj1 (IHr _ _ m1 W1 X1)) as (m2 & Eb & Gb). { intros i Hi T. rewrite D, E1 by lia. apply M; [lia|]. rewrite <- K1; [exact T|lia]. }
        rewrite Ea. cbn [obind]. rewrite Eb. exists m2. split; [reflexivity|].
        apply scattered_app with m1.
        * eapply scattered_ext; [|exact Ga]. intros i Hi. split; [apply E0; lia|apply K0; lia].
        * eapply scattered_ext; [|exact Gb]. intros i Hi. cbv beta. rewrite Ll. split; [apply E1; lia|apply K1; lia].
      + intros (i & Hi & T & E).
        destruct (scatter_mask g l mem (index_lo x) k0 m) as [m1|] eqn:Em1; [|reflexivity]. cbn [obind].
        destruct (Z.lt_ge_cases i (Z.of_nat (left_size n))) as [H|H].
        * enough (Q : Some m1 = None) by discriminate Q. apply A2. exists i. split; [lia|]. split; [now rewrite K0 by lia|]. now rewrite E0 by lia.
        * assert (Ml : mapped m mem (index_at (index_lo x)) (left_size n) (znth false (to_list k0))).
          { intros j Hj Tj Nj. enough (Q : Some m1 = None) by discriminate Q. apply A2. eauto. }
          destruct (A1 Ml) as (m1' & Ea & Ga). assert (m1' = m1) by congruence. subst m1'.
          assert (D : forall a, m1 a = None <-> m a = None) by (eapply scattered_dom; [|exact Ga]; now rewrite Ll).
          apply (proj2 (IHr _ _ m1 W1 X1)).
          exists (i - Z.of_nat (left_size n)). split; [lia|]. rewrite K1, E1, D by lia. now replace (i - Z.of_nat (left_size n) + Z.of_nat (left_size n)) with i by lia.
  Qed.
  Lemma scatter_ok last g mem : nscatter_ok last g -> forall n t, wf native n t -> forall x m, index_ok n x ->
    (mapped m mem (index_at x) n (fun _ => true) ->
       exists m', scatter g t mem x m = Some m' /\ scattered_gen last zero (to_list t) mem (index_at x) (fun _ => true) m m') /\
    ((exists i, 0 <= i < Z.of_nat n /\ m (mem + index_at x i) = None) -> scatter g t mem x m = None).
  Proof.
    intros Hg n t W. induction W as [n xs N L|n l r N Wl IHl Wr IHr]; intros x m Hx.
    - subst n. pose proof (native_pos native Hw _ N) as Hn. cbn [scatter to_list].
      assert (IE : forall i, 0 <= i < Z.of_nat (length xs) -> index_get (length xs) x i = index_at x i) by (intros; now apply index_get_at).
      destruct (Hg m mem (index_get (length xs) x) xs N) as [G1 G2]. split.
      + intros M. destruct G1 as (r & E & G); [intros i Hi T; rewrite IE by auto; now apply M|]. exists r. split; [exact E|].
        eapply scattered_ext; [|exact G]. intros i Hi. now rewrite IE.
      + intros (i & Hi & E). apply G2. exists i. rewrite IE; auto.
    - destruct (wf_size native Hw _ _ (wf_node native n l r N Wl Wr)) as (_ & _ & H1).
      pose proof (not_native_ge2 native Hw n H1 N) as H2.
      destruct (right_left n H2) as [R1 R2].
      destruct (index_split native n x N H2 Hx) as (X0 & X1 & E0 & E1).
      cbn [scatter to_list]. destruct (wf_size native Hw _ _ Wl) as (Sl & Ll & _). destruct (wf_size native Hw _ _ Wr) as (_ & Lr & _). rewrite Sl.
      destruct (IHl _ m X0) as [A1 A2].
      assert (M0 : mapped m mem (index_at x) n (fun _ => true) -> mapped m mem (index_at (index_lo x)) (left_size n) (fun _ => true)).
      { intros M i Hi T. rewrite E0 by lia. apply M; [lia|reflexivity]. }
      split.
      + intros M. destruct (A1 (M0 M)) as (m1 & Ea & Ga).
        assert (D : forall a, m1 a = None <-> m a = None) by (eapply scattered_dom; [|exact Ga]; rewrite Ll; now apply M0).
        destruct (proj1 (IHr _ m1 X1)) as (m2 & Eb & Gb). { intros i Hi T. rewrite D, E1 by lia. apply M; [lia|reflexivity]. }
        rewrite Ea. cbn [obind]. rewrite Eb. exists m2. split; [reflexivity|].
        apply scattered_app with m1.
        * eapply scattered_ext; [|exact Ga]. intros i Hi. split; [apply E0; lia|reflexivity].
        * eapply scattered_ext; [|exact Gb]. intros i Hi. cbv beta. rewrite Ll. split; [apply E1; lia|reflexivity].
      + intros (i & Hi & E).
        destruct (scatter g l mem (index_lo x) m) as [m1|] eqn:Em1; [|reflexivity]. cbn [obind].
        destruct (Z.lt_ge_cases i (Z.of_nat (left_size n))) as [H|H].
        * enough (Q : Some m1 = None) by discriminate Q. apply A2. exists i. split; [lia|]. now rewrite E0 by lia.
        * assert (Ml : mapped m mem (index_at (index_lo x)) (left_size n) (fun _ => true)).
          { intros j Hj Tj Nj. enough (Q : Some m1 = None) by discriminate Q. apply A2. eauto. }
          destruct (A1 Ml) as (m1' & Ea & Ga). assert (m1' = m1) by congruence. subst m1'.
          assert (D : forall a, m1 a = None <-> m a = None) by (eapply scattered_dom; [|exact Ga]; now rewrite Ll).
          apply (proj2 (IHr _ m1 X1)).
          exists (i - Z.of_nat (left_size n)). split; [lia|]. rewrite E1, D by lia. now replace (i - Z.of_nat (left_size n) + Z.of_nat (left_size n)) with i by lia.
  Qed.
End ScatterArrays.

(** * SSE builds *)
Lemma sse_widths_cases w n : width_ok w -> sse_native w n = true -> n = 1%nat \/ simd_width n.
Proof.
  intros Hw. unfold sse_native. rewrite orb_true_iff, !Nat.eqb_eq. intros [->| ->]; [now left|]. right. unfold simd_width. by_width Hw; cbn; auto.
Qed.
Lemma sse_width_16 w n : width_ok w -> sse_native w n = true -> n <> 1%nat -> n = (16 / w)%nat.
Proof. intros Hw. unfold sse_native. rewrite orb_true_iff, !Nat.eqb_eq. intros [|]; auto; congruence. Qed.

Lemma native_gather_ok {A} (zero : A) w : ngather_ok zero (sse_native w) gather_all.
Proof. intros m mem idx v _. apply gather_all_ok. Qed.
Lemma not_single {A B} (v : list A) (f : A -> B) (g : B) : length v <> 1%nat -> match v with [x] => f x | _ => g end = g.
Proof. destruct v as [|? [|]]; auto. intros H. now elim H. Qed.

Lemma native_gather_masked_ok {A} (zero : A) st hw w : width_ok w -> exact_strategy st = true ->
  ngather_masked_ok zero (sse_native w) (native_gather_masked st hw w).
Proof.
  intros Hw Hst m mem idx ks v N L. destruct (Nat.eq_dec (length v) 1) as [E1|N1].
  - destruct v as [|x [|]]; try discriminate. destruct ks as [|b [|]]; try discriminate. unfold native_gather_masked.
    change (znth false [b] 0) with b. destruct (gather_all_ok zero m mem idx [x]) as [G1 G2]. destruct b.
    + split.
      * intros M. destruct G1 as (r & E & G). { intros i Hi _. apply M; [exact Hi|]. cbn in Hi. now replace i with 0 by lia. }
        exists r. split; [exact E|]. eapply gathered_ext; [|exact G]. intros i Hi. split; [reflexivity|]. cbn in Hi. now replace i with 0 by lia.
      * intros (i & Hi & _ & Ei). apply G2. eauto.
    + assert (F : forall i, 0 <= i < Z.of_nat (length [x]) -> znth false [false] i = false) by (intros i Hi; cbn in Hi; now replace i with 0 by lia).
      split.
      * intros _. exists [x]. split; [reflexivity|]. split; [reflexivity|]. intros i Hi. now rewrite F.
      * intros (i & Hi & T & _). rewrite F in T by auto. discriminate.
  - unfold native_gather_masked. rewrite not_single by auto.
    pose proof (sse_width_16 w _ Hw N N1) as L16. rewrite m_to_int_ok by (auto; congruence).
    apply gather_masked_ok; auto. destruct (sse_widths_cases w _ Hw N) as [|]; [contradiction|assumption].
Qed.
Lemma native_scatter_ok {A} (zero : A) w : nscatter_ok zero (sse_native w) true (scatter_all zero).
Proof. intros m mem idx v _. apply scatter_all_ok. Qed.
Lemma native_scatter_masked_ok {A} (zero : A) st hw w : width_ok w -> exact_strategy st = true ->
  nscatter_masked_ok zero (sse_native w) (match st with SimpleLoop => true | _ => false end) (native_scatter_masked zero st hw w).
Proof.
  intros Hw Hst m mem idx ks v N L. destruct (Nat.eq_dec (length v) 1) as [E1|N1].
  - destruct v as [|x [|]]; try discriminate. destruct ks as [|b [|]]; try discriminate. unfold native_scatter_masked.
    change (znth false [b] 0) with b. destruct (scatter_all_ok zero [x] mem idx m) as [G1 G2]. destruct b.
    + split.
      * intros M. destruct G1 as (r & E & G). { intros i Hi _. apply M; [exact Hi|]. cbn in Hi. now replace i with 0 by lia. }
        exists r. split; [exact E|]. assert (G' : scattered_gen (match st with SimpleLoop => true | _ => false end) zero [x] mem idx (fun _ => true) m r).
        { destruct st; auto; now apply scattered_gen_weak in G. }
        eapply scattered_ext; [|exact G']. intros i Hi. split; [reflexivity|]. cbn in Hi. now replace i with 0 by lia.
      * intros (i & Hi & _ & Ei). apply G2. eauto.
    + assert (F : forall i, 0 <= i < Z.of_nat (length [x]) -> znth false [false] i = false) by (intros i Hi; cbn in Hi; now replace i with 0 by lia).
      split.
      * intros _. exists m. split; [reflexivity|]. intros a. left. split; [reflexivity|]. intros i Hi T. rewrite F in T by auto. discriminate.
      * intros (i & Hi & T & _). rewrite F in T by auto. discriminate.
  - unfold native_scatter_masked. rewrite not_single by auto.
    pose proof (sse_width_16 w _ Hw N N1) as L16. rewrite m_to_int_ok by (auto; congruence).
    apply scatter_masked_ok; auto. destruct (sse_widths_cases w _ Hw N) as [|]; [contradiction|assumption].
Qed.
