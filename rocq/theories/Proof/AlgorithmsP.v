From Coq Require Import ZArith List Bool Lia.
From Verif.Spec Require Import Seq MaskSpec NativeSpec GatherSpec MemSpec AlgorithmSpec.
From Verif.Model Require Import Mem SplitSize SimdArray SimdArrayOps BitScan SseMove SseMask Algorithms.
From Verif.Proof Require Import SeqP SimdArrayP SimdArrayOpsP SseMoveP SseMaskP BitScanP.
Import ListNotations.
Local Open Scope Z_scope.

(** * blocks *)
Lemma skipn_skipn {A} : forall a b (xs : list A), skipn a (skipn b xs) = skipn (a + b) xs.
Proof.
  intros a b. revert a. induction b as [|b IH]; intros a xs; [now rewrite Nat.add_0_r|].
  rewrite Nat.add_succ_r. destruct xs as [|x xs]; [now rewrite !skipn_nil|]. cbn [skipn]. apply IH.
Qed.
Lemma blocks_step {A} w (xs : list A) : (1 <= w)%nat -> (w <= length xs)%nat -> blocks w xs = firstn w xs :: blocks w (skipn w xs).
Proof.
  intros Hw Hl. unfold blocks. rewrite skipn_length.
  assert (E : (length xs / w = S ((length xs - w) / w))%nat).
  { replace (length xs) with ((length xs - w) + 1 * w)%nat at 1 by lia. rewrite Nat.div_add by lia. lia. }
  rewrite E. cbn [seq map app Nat.mul skipn]. f_equal. f_equal.
  - rewrite <- seq_shift, map_map. apply map_ext. intros i. f_equal. rewrite skipn_skipn. f_equal. lia.
  - rewrite skipn_skipn. f_equal. f_equal. lia.
Qed.
Lemma blocks_small {A} w (xs : list A) : (length xs < w)%nat -> blocks w xs = map (fun x => [x]) xs.
Proof. intros H. unfold blocks. rewrite Nat.div_small by lia. reflexivity. Qed.
Lemma blocks_ind {A} w (P : list A -> Prop) : (1 <= w)%nat -> (forall xs, (length xs < w)%nat -> P xs) ->
  (forall xs, (w <= length xs)%nat -> P (skipn w xs) -> P xs) -> forall xs, P xs.
Proof.
  intros Hw H0 H1 xs. remember (length xs) as n eqn:E. revert xs E. induction n as [n IH] using lt_wf_ind. intros xs ->.
  destruct (Nat.lt_ge_cases (length xs) w) as [H|H]; [auto|]. apply H1; [exact H|]. eapply IH; [|reflexivity]. rewrite skipn_length. lia.
Qed.
Lemma blocks_concat {A} w (xs : list A) : (1 <= w)%nat -> concat (blocks w xs) = xs.
Proof.
  intros Hw. revert xs. apply (blocks_ind w); [exact Hw| |].
  - intros xs H. rewrite blocks_small by auto. clear. induction xs; cbn; congruence.
  - intros xs H IH. rewrite blocks_step by auto. cbn [concat]. rewrite IH. apply firstn_skipn.
Qed.
Lemma blocks_lengths {A} w (xs : list A) : (1 <= w)%nat ->
  map (@length A) (blocks w xs) = repeat w (length xs / w) ++ repeat 1%nat (length xs mod w).
Proof.
  intros Hw. revert xs. apply (blocks_ind w); [exact Hw| |].
  - intros xs H. rewrite blocks_small, Nat.div_small, Nat.mod_small by auto. cbn [repeat app]. rewrite map_map. clear. induction xs as [|x xs IH]; [reflexivity|]. cbn [map length repeat] in *. f_equal. exact IH.
  - intros xs H IH. rewrite blocks_step by auto. cbn [map]. rewrite IH, skipn_length, firstn_length_le by auto.
    assert (E : (length xs = (length xs - w) + 1 * w)%nat) by lia.
    assert (D : (length xs / w = S ((length xs - w) / w))%nat) by (rewrite E at 1; rewrite Nat.div_add by lia; lia).
    assert (M : (length xs mod w = (length xs - w) mod w)%nat) by (rewrite E at 1; rewrite Nat.mod_add by lia; reflexivity).
    now rewrite D, M.
Qed.

(** * memory *)
Definition cells {A} (m : memory A) (base : Z) (xs : list A) : Prop := mem_load m base (length xs) = Some xs.
Lemma cells_app {A} (m : memory A) base xs ys : cells m base (xs ++ ys) <-> cells m base xs /\ cells m (base + Z.of_nat (length xs)) ys.
Proof.
  unfold cells. revert base. induction xs as [|x xs IH]; intros base.
  - cbn. rewrite Z.add_0_r. intuition.
  - cbn [app length mem_load]. specialize (IH (base + 1)). replace (base + 1 + Z.of_nat (length xs)) with (base + Z.of_nat (S (length xs))) in IH by lia.
    destruct (m base) as [y|]; [|intuition discriminate].
    destruct (mem_load m (base + 1) (length (xs ++ ys))) as [l1|], (mem_load m (base + 1) (length xs)) as [l2|]; cbn [option_map];
    split; intros H; try discriminate H; try (destruct H as [H _]; discriminate H).
    + injection H as -> ->. destruct IH as [I _]. destruct (I eq_refl) as [[= ->] H2]. auto.
    + destruct H as [[= -> ->] H]. destruct IH as [_ I]. specialize (I (conj eq_refl H)). now injection I as ->.
    + injection H as -> ->. destruct IH as [I _]. destruct (I eq_refl) as [X _]. discriminate X.
    + destruct H as [[= -> ->] H]. destruct IH as [_ I]. specialize (I (conj eq_refl H)). discriminate I.
Qed.
Lemma cells_ext {A} (m m' : memory A) base xs : (forall a, base <= a < base + Z.of_nat (length xs) -> m' a = m a) -> cells m base xs -> cells m' base xs.
Proof.
  unfold cells. revert base. induction xs as [|x xs IH]; intros base H C; [exact C|]. cbn [length mem_load] in *.
  rewrite H by lia. destruct (m base) as [y|]; [|exact C].
  destruct (mem_load m (base + 1) (length xs)) as [l|] eqn:E; [|discriminate]. cbn in C. injection C as -> ->.
  rewrite IH; [reflexivity| |exact E]. intros a Ha. apply H. lia.
Qed.
Lemma cells_mapped {A} (m : memory A) base xs i : cells m base xs -> 0 <= i < Z.of_nat (length xs) -> exists v, m (base + i) = Some v.
Proof.
  intros C Hi. destruct (m (base + i)) as [v|] eqn:E; [eauto|]. unfold cells in C. rewrite (mem_load_none _ m _ base i Hi E) in C. discriminate.
Qed.
(** m' is m with [out] at [base] *)
Definition overwritten {A} (m : memory A) (base : Z) (out : list A) (m' : memory A) : Prop :=
  cells m' base out /\ forall a, a < base \/ base + Z.of_nat (length out) <= a -> m' a = m a.
Lemma store_overwrites {A} (m : memory A) base xs out : cells m base xs -> length out = length xs ->
  exists m', mem_store m base out = Some m' /\ overwritten m base out m'.
Proof.
  intros C L. destruct out as [|d out'] eqn:EO.
  { exists m. split; [reflexivity|]. split; [reflexivity|]. auto. }
  rewrite <- EO in *. destruct (mem_store_spec A out m base d) as (m' & E & H).
  { intros i Hi. rewrite L in Hi. now apply (cells_mapped m base xs). }
  exists m'. split; [exact E|]. split.
  - unfold cells. rewrite (mem_load_spec A m' (length out) base d).
    + f_equal. rewrite <- (tab_znth A d out) at 2. apply tab_ext. intros i Hi. rewrite H.
      destruct (Z.leb_spec base (base + i)), (Z.ltb_spec (base + i) (base + Z.of_nat (length out))); try lia. cbn. f_equal. lia.
    + intros i Hi. rewrite H. destruct (Z.leb_spec base (base + i)), (Z.ltb_spec (base + i) (base + Z.of_nat (length out))); try lia. cbn. eauto.
  - intros a Ha. rewrite H. destruct (Z.leb_spec base a), (Z.ltb_spec a (base + Z.of_nat (length out))); try lia; reflexivity.
Qed.
Lemma overwritten_app {A} (m m1 m2 : memory A) base o1 o2 : overwritten m base o1 m1 ->
  overwritten m1 (base + Z.of_nat (length o1)) o2 m2 -> overwritten m base (o1 ++ o2) m2.
Proof.
  intros [C1 F1] [C2 F2]. split.
  - apply cells_app. split; [|exact C2]. eapply cells_ext; [|exact C1]. intros a Ha. apply F2. lia.
  - rewrite app_length. intros a Ha. rewrite F2 by lia. apply F1. lia.
Qed.

Lemma nth_error_in {A} (d : A) xs i : 0 <= i < Z.of_nat (length xs) -> nth_error xs (Z.to_nat i) = Some (znth d xs i).
Proof.
  intros H. unfold znth. destruct (Z.leb_spec 0 i), (Z.ltb_spec i (Z.of_nat (length xs))); try lia. cbn [andb]. apply nth_error_nth'. lia.
Qed.
Lemma cells_holds {A} (m : memory A) base xs : cells m base xs <-> holds m base xs.
Proof.
  unfold cells, holds. revert base. induction xs as [|x xs IH]; intros base.
  - split; [intros _ i H; cbn in H; lia|reflexivity].
  - cbn [length mem_load]. specialize (IH (base + 1)). split.
    + intros H i Hi. destruct (m base) as [v|] eqn:E; [|discriminate]. destruct (mem_load m (base + 1) (length xs)) as [l|]; [|discriminate].
      cbn in H. injection H as -> ->. destruct i as [|i]; [rewrite Z.add_0_r; exact E|]. cbn [nth_error]. destruct IH as [IH _]. rewrite <- (IH eq_refl i) by lia. f_equal. lia.
    + intros H. pose proof (H 0%nat ltac:(lia)) as H0. rewrite Z.add_0_r in H0. cbn in H0. rewrite H0. destruct IH as [_ IH]. rewrite IH; [reflexivity|].
      intros i Hi. change (nth_error xs i) with (nth_error (x :: xs) (Datatypes.S i)). rewrite <- (H (Datatypes.S i)) by lia. f_equal. lia.
Qed.
Lemma overwritten_replaced {A} (m : memory A) base xs m' : overwritten m base xs m' <-> replaced m base xs m'.
Proof. unfold overwritten, replaced. now rewrite cells_holds. Qed.

Section ForEach.
  Context {A S : Type} (w : nat) (mut : bool) (f : S -> list A -> S * list A).
  Hypothesis Hw : (1 <= w)%nat.
  Hypothesis Hlen : forall s xs, length (snd (f s xs)) = length xs.

  (** the memory after the calls *)
  Definition after (m : memory A) (base : Z) (outs : list (list A)) (m' : memory A) : Prop :=
    if mut then overwritten m base (concat outs) m' else m' = m.

  Lemma run_calls_length : forall args s, map (@length A) (snd (run_calls f s args)) = map (@length A) args.
  Proof.
    induction args as [|x args IH]; intros s; [reflexivity|]. cbn [run_calls]. pose proof (Hlen s x) as L. destruct (f s x) as [s1 y]. cbn [snd] in L.
    specialize (IH s1). destruct (run_calls f s1 args) as [s2 ys]. cbn [snd map] in *. now rewrite L, IH.
  Qed.
  Lemma concat_length_eq (a b : list (list A)) : map (@length A) a = map (@length A) b -> length (concat a) = length (concat b).
  Proof.
    revert b. induction a as [|x a IH]; intros [|y b] H; try discriminate; [reflexivity|]. cbn in *. injection H as H1 H2. rewrite !app_length, (IH b); auto.
  Qed.
  Lemma run_calls_app : forall args args' s, run_calls f s (args ++ args') =
    (fst (run_calls f (fst (run_calls f s args)) args'), snd (run_calls f s args) ++ snd (run_calls f (fst (run_calls f s args)) args')).
  Proof.
    induction args as [|x args IH]; intros args' s; cbn [app run_calls]; [cbn; now destruct (run_calls f s args')|].
    destruct (f s x) as [s1 y]. rewrite IH. destruct (run_calls f s1 args) as [s2 ys]. cbn [fst snd app]. reflexivity.
  Qed.

  Lemma one_call_ok k base s m xs : length xs = k -> cells m base xs ->
    exists m', one_call mut f k base (s, m) = Some (fst (f s xs), m') /\ (if mut then overwritten m base (snd (f s xs)) m' else m' = m).
  Proof.
    intros L C. unfold one_call. rewrite <- L. unfold cells in C. rewrite C. cbn [obind]. pose proof (Hlen s xs) as L2. destruct (f s xs) as [s' out]. cbn [fst snd] in *.
    destruct mut; [|eauto]. destruct (store_overwrites m base xs out C L2) as (m' & E & O). rewrite E. cbn [obind]. eauto.
  Qed.
  Lemma after_cells (m : memory A) base out m' (ys : list A) : (if mut then overwritten m base out m' else m' = m) ->
    cells m (base + Z.of_nat (length out)) ys -> cells m' (base + Z.of_nat (length out)) ys.
  Proof.
    destruct mut; [|now intros ->]. intros [_ F] C. eapply cells_ext; [|exact C]. intros a Ha. apply F. lia.
  Qed.

  Lemma scalar_loop_ok : forall (xs : list A) fuel base s m, cells m base xs -> (length xs <= fuel)%nat ->
    exists m', scalar_loop mut f fuel base (base + Z.of_nat (length xs)) (s, m) = Some (fst (run_calls f s (map (fun x => [x]) xs)), m') /\
      after m base (snd (run_calls f s (map (fun x => [x]) xs))) m'.
  Proof.
    induction xs as [|x xs IH]; intros fuel base s m C Hf.
    - exists m. cbn [length]. rewrite Z.add_0_r. destruct fuel; cbn [scalar_loop]; rewrite Z.eqb_refl; (split; [reflexivity|]); unfold after; destruct mut; auto; split; auto; reflexivity.
    - destruct fuel as [|fuel]; [cbn in Hf; lia|]. cbn [scalar_loop length map run_calls] in *.
      destruct (Z.eqb_spec base (base + Z.of_nat (Datatypes.S (length xs)))) as [|_]; [lia|].
      change (x :: xs) with ([x] ++ xs) in C. apply cells_app in C. destruct C as [C1 C2].
      destruct (one_call_ok 1 base s m [x] eq_refl C1) as (m1 & E1 & O1). rewrite E1. cbn [obind].
      pose proof (Hlen s [x]) as L1. destruct (f s [x]) as [s1 out]. cbn [fst snd] in *. cbn [length] in C2, L1.
      pose proof C2 as C2'. rewrite <- L1 in C2'. pose proof (after_cells m base out m1 xs O1 C2') as C3. rewrite L1 in C3.
      destruct (IH fuel (base + 1) s1 m1 C3 ltac:(lia)) as (m2 & E2 & A2).
      replace (base + Z.of_nat (Datatypes.S (length xs))) with (base + 1 + Z.of_nat (length xs)) by lia. rewrite E2.
      destruct (run_calls f s1 (map (fun x => [x]) xs)) as [s2 ys]. cbn [fst snd] in *. exists m2. split; [reflexivity|].
      unfold after in *. destruct mut; [|congruence]. cbn [concat]. eapply overwritten_app; [exact O1|]. now rewrite L1.
  Qed.
  Lemma for_each_ok : forall (xs : list A) fuel base s m, cells m base xs -> (length xs <= fuel)%nat ->
    exists m', simd_for_each w mut f fuel base (base + Z.of_nat (length xs)) s m = Some (fst (run_calls f s (blocks w xs)), m') /\
      after m base (snd (run_calls f s (blocks w xs))) m'.
  Proof.
    intros xs fuel base s m C Hf. unfold simd_for_each.
    enough (G : forall fuel2, (length xs <= fuel2)%nat -> exists m', obind (vector_loop w mut f fuel base (base + Z.of_nat (length xs) - Z.of_nat w + 1) (s, m))
      (fun r => scalar_loop mut f fuel2 (fst r) (base + Z.of_nat (length xs)) (snd r)) = Some (fst (run_calls f s (blocks w xs)), m') /\
      after m base (snd (run_calls f s (blocks w xs))) m') by (apply G; exact Hf).
    intros fuel2 Hf2. revert xs C Hf Hf2. intros xs. revert xs fuel base s m. refine (blocks_ind w _ Hw _ _).
    - intros xs H fuel base s m C Hf Hf2. destruct fuel; unfold vector_loop; fold (@vector_loop A S w mut f);
      (destruct (Z.ltb_spec base (base + Z.of_nat (length xs) - Z.of_nat w + 1)); [lia|]); cbn [obind fst snd]; rewrite blocks_small by auto; now apply scalar_loop_ok.
    - intros xs H IH fuel base s m C Hf Hf2. destruct fuel as [|fuel]; [lia|]. unfold vector_loop; fold (@vector_loop A S w mut f).
      destruct (Z.ltb_spec base (base + Z.of_nat (length xs) - Z.of_nat w + 1)); [|lia].
      rewrite <- (firstn_skipn w xs) in C. apply cells_app in C. rewrite firstn_length_le in C by auto. destruct C as [C1 C2].
      destruct (one_call_ok w base s m (firstn w xs)) as (m1 & E1 & O1); [now apply firstn_length_le|exact C1|]. rewrite E1. cbn [obind].
      rewrite blocks_step by auto. cbn [run_calls].
      pose proof (Hlen s (firstn w xs)) as L1. rewrite firstn_length_le in L1 by auto. destruct (f s (firstn w xs)) as [s1 out]. cbn [fst snd] in *.
      pose proof C2 as C2'. rewrite <- L1 in C2'. pose proof (after_cells m base out m1 _ O1 C2') as C3. rewrite L1 in C3.
      pose proof (skipn_length w xs) as SL.
      destruct (IH fuel (base + Z.of_nat w) s1 m1 C3 ltac:(lia) ltac:(lia)) as (m2 & E2 & A2).
      replace (base + Z.of_nat w + Z.of_nat (length (skipn w xs))) with (base + Z.of_nat (length xs)) in E2 by lia. rewrite E2.
      destruct (run_calls f s1 (blocks w (skipn w xs))) as [s2 ys]. cbn [fst snd] in *. exists m2. split; [reflexivity|].
      unfold after in *. destruct mut; [|congruence]. cbn [concat]. eapply overwritten_app; [exact O1|]. now rewrite L1.
  Qed.

  Lemma scalar_loop_n_ok : forall (xs : list A) fuel base s m, cells m base xs -> (length xs <= fuel)%nat ->
    exists m', scalar_loop_n mut f fuel (Z.of_nat (length xs)) base (s, m) = Some (fst (run_calls f s (map (fun x => [x]) xs)), m') /\
      after m base (snd (run_calls f s (map (fun x => [x]) xs))) m'.
  Proof.
    induction xs as [|x xs IH]; intros fuel base s m C Hf.
    - exists m. destruct fuel; cbn [scalar_loop_n length Z.of_nat]; rewrite Z.eqb_refl; (split; [reflexivity|]); unfold after; destruct mut; auto; split; auto; reflexivity.
    - destruct fuel as [|fuel]; [cbn in Hf; lia|]. cbn [scalar_loop_n length map run_calls] in *.
      destruct (Z.eqb_spec (Z.of_nat (Datatypes.S (length xs))) 0) as [|_]; [lia|].
      change (x :: xs) with ([x] ++ xs) in C. apply cells_app in C. destruct C as [C1 C2].
      destruct (one_call_ok 1 base s m [x] eq_refl C1) as (m1 & E1 & O1). rewrite E1. cbn [obind].
      pose proof (Hlen s [x]) as L1. destruct (f s [x]) as [s1 out]. cbn [fst snd] in *. cbn [length] in C2, L1.
      pose proof C2 as C2'. rewrite <- L1 in C2'. pose proof (after_cells m base out m1 xs O1 C2') as C3. rewrite L1 in C3.
      destruct (IH fuel (base + 1) s1 m1 C3 ltac:(lia)) as (m2 & E2 & A2).
      replace (Z.of_nat (Datatypes.S (length xs)) - 1) with (Z.of_nat (length xs)) by lia. rewrite E2.
      destruct (run_calls f s1 (map (fun x => [x]) xs)) as [s2 ys]. cbn [fst snd] in *. exists m2. split; [reflexivity|].
      unfold after in *. destruct mut; [|congruence]. cbn [concat]. eapply overwritten_app; [exact O1|]. now rewrite L1.
  Qed.
  Lemma for_each_n_ok : forall (xs : list A) fuel base s m, cells m base xs -> (length xs <= fuel)%nat -> Z.of_nat (length xs) < 2 ^ 63 ->
    exists m', simd_for_each_n w mut f fuel base (Z.of_nat (length xs)) s m = Some (fst (run_calls f s (blocks w xs)), m') /\
      after m base (snd (run_calls f s (blocks w xs))) m'.
  Proof.
    intros xs fuel base s m C Hf H63. unfold simd_for_each_n. destruct (Z.ltb_spec (Z.of_nat (length xs)) (2 ^ 63)); [|lia]. clear H63 H.
    enough (G : forall fuel2, (length xs <= fuel2)%nat -> exists m', obind (vector_loop_n w mut f fuel (Z.of_nat (length xs)) base (s, m))
      (fun r => scalar_loop_n mut f fuel2 (fst (fst r)) (snd (fst r)) (snd r)) = Some (fst (run_calls f s (blocks w xs)), m') /\
      after m base (snd (run_calls f s (blocks w xs))) m') by (apply G; exact Hf).
    intros fuel2 Hf2. revert xs C Hf Hf2. intros xs. revert xs fuel base s m. refine (blocks_ind w _ Hw _ _).
    - intros xs H fuel base s m C Hf Hf2. destruct fuel; unfold vector_loop_n; fold (@vector_loop_n A S w mut f);
      (destruct (Z.leb_spec (Z.of_nat w) (Z.of_nat (length xs))); [lia|]); cbn [obind fst snd]; rewrite blocks_small by auto; now apply scalar_loop_n_ok.
    - intros xs H IH fuel base s m C Hf Hf2. destruct fuel as [|fuel]; [lia|]. unfold vector_loop_n; fold (@vector_loop_n A S w mut f).
      destruct (Z.leb_spec (Z.of_nat w) (Z.of_nat (length xs))); [|lia].
      rewrite <- (firstn_skipn w xs) in C. apply cells_app in C. rewrite firstn_length_le in C by auto. destruct C as [C1 C2].
      destruct (one_call_ok w base s m (firstn w xs)) as (m1 & E1 & O1); [now apply firstn_length_le|exact C1|]. rewrite E1. cbn [obind].
      rewrite blocks_step by auto. cbn [run_calls].
      pose proof (Hlen s (firstn w xs)) as L1. rewrite firstn_length_le in L1 by auto. destruct (f s (firstn w xs)) as [s1 out]. cbn [fst snd] in *.
      pose proof C2 as C2'. rewrite <- L1 in C2'. pose proof (after_cells m base out m1 _ O1 C2') as C3. rewrite L1 in C3.
      pose proof (skipn_length w xs) as SL.
      destruct (IH fuel (base + Z.of_nat w) s1 m1 C3 ltac:(lia) ltac:(lia)) as (m2 & E2 & A2).
      replace (Z.of_nat (length (skipn w xs))) with (Z.of_nat (length xs) - Z.of_nat w) in E2 by lia. rewrite E2.
      destruct (run_calls f s1 (blocks w (skipn w xs))) as [s2 ys]. cbn [fst snd] in *. exists m2. split; [reflexivity|].
      unfold after in *. destruct mut; [|congruence]. cbn [concat]. eapply overwritten_app; [exact O1|]. now rewrite L1.
  Qed.
End ForEach.

(** * apply, call, fill, callWithValuesSorted *)
Lemma list_set_app {A} (pre : list A) x xs y k : length pre = k -> list_set (pre ++ x :: xs) k y = (pre ++ [y]) ++ xs.
Proof. intros <-. induction pre as [|p pre IH]; [reflexivity|]. cbn [app list_set length]. now rewrite IH. Qed.
Lemma znth_mid {A} (d : A) pre x xs : znth d (pre ++ x :: xs) (Z.of_nat (length pre)) = x.
Proof.
  unfold znth. rewrite app_length. cbn [length]. destruct (Z.leb_spec 0 (Z.of_nat (length pre))), (Z.ltb_spec (Z.of_nat (length pre)) (Z.of_nat (length pre + S (length xs)))); try lia.
  cbn [andb]. rewrite Nat2Z.id, app_nth2, Nat.sub_diag by lia. reflexivity.
Qed.
Lemma tab_from_S n o : tab (S n) (fun i => o + i) = o :: tab n (fun i => (o + 1) + i).
Proof. rewrite tab_S. f_equal; [lia|]. apply tab_ext. intros i Hi. lia. Qed.

Section Steps.
  Context {A S : Type} (zero : A).
  (** one step for position [i] *)
  Lemma steps_ok (g : S -> Z -> S * A) : forall n pre (junk : list A) s, length junk = n ->
    fold_left (fun sr i => let (s', y) := g (fst sr) i in (s', list_set (snd sr) (Z.to_nat i) y)) (tab n (fun i => Z.of_nat (length pre) + i)) (s, pre ++ junk) =
    (fst (run_calls g s (tab n (fun i => Z.of_nat (length pre) + i))), pre ++ snd (run_calls g s (tab n (fun i => Z.of_nat (length pre) + i)))).
  Proof.
    induction n as [|n IH]; intros pre junk s L.
    - destruct junk; [|discriminate]. reflexivity.
    - destruct junk as [|j junk]; [discriminate|]. rewrite tab_from_S. cbn [fold_left run_calls fst snd].
      destruct (g s (Z.of_nat (length pre))) as [s1 y]. rewrite Nat2Z.id, list_set_app by reflexivity.
      specialize (IH (pre ++ [y]) junk s1 ltac:(cbn in L; lia)). rewrite app_length in IH. cbn [length] in IH.
      replace (Z.of_nat (length pre + 1)) with (Z.of_nat (length pre) + 1) in IH by lia. rewrite IH.
      destruct (run_calls g s1 (tab n (fun i => Z.of_nat (length pre) + 1 + i))) as [s2 ys]. cbn [fst snd]. now rewrite <- app_assoc.
  Qed.
  Lemma run_calls_map {X Y} (g : S -> Y -> S * A) (h : X -> Y) : forall xs s, run_calls g s (map h xs) = run_calls (fun s x => g s (h x)) s xs.
  Proof. induction xs as [|x xs IH]; intros s; [reflexivity|]. cbn [map run_calls]. destruct (g s (h x)) as [s1 y]. now rewrite IH. Qed.
  Lemma fill_ok (g : S -> Z -> S * A) xs s : v_fill g xs s = run_calls g s (tab (length xs) (fun i => i)).
  Proof.
    unfold v_fill. pose proof (steps_ok g (length xs) [] xs s eq_refl) as H. cbn [length app] in H.
    assert (T : tab (length xs) (fun i => Z.of_nat 0 + i) = tab (length xs) (fun i => i)) by (apply tab_ext; intros; lia). rewrite T in H. rewrite H.
    now destruct (run_calls g s _).
  Qed.
  Variable f : S -> A -> S * A.
  Lemma apply_ok xs junk s : length junk = length xs -> v_apply zero f xs junk s = run_calls f s xs.
  Proof.
    intros L. unfold v_apply, apply_step. pose proof (steps_ok (fun s i => f s (znth zero xs i)) (length xs) [] junk s L) as H. cbn [length app] in H.
    assert (T : tab (length xs) (fun i => Z.of_nat 0 + i) = tab (length xs) (fun i => i)) by (apply tab_ext; intros; lia). rewrite T in H. etransitivity; [exact H|].
    rewrite <- surjective_pairing. rewrite <- (run_calls_map f (znth zero xs)). unfold tab. rewrite map_map. change (map (fun x => znth zero xs (Z.of_nat x)) (seq 0 (length xs))) with (tab (length xs) (znth zero xs)).
    now rewrite tab_znth.
  Qed.
  Lemma apply_mask_steps : forall ks xs pre s, length ks = length xs ->
    fold_left (apply_mask_step zero f) (set_from (Z.of_nat (length pre)) ks) (s, pre ++ xs) = (fst (run_selected f s ks xs), pre ++ snd (run_selected f s ks xs)).
  Proof.
    induction ks as [|b ks IH]; intros [|x xs] pre s L; try discriminate; [reflexivity|]. cbn [set_from run_selected].
    injection L as L. assert (E : Z.of_nat (length pre) + 1 = Z.of_nat (length (pre ++ [x]))) by (rewrite app_length; cbn; lia).
    destruct b; cbn [app fold_left].
    - unfold apply_mask_step at 2. cbn [fst snd]. rewrite znth_mid. destruct (f s x) as [s1 y]. rewrite Nat2Z.id, list_set_app by reflexivity.
      assert (E2 : Z.of_nat (length pre) + 1 = Z.of_nat (length (pre ++ [y]))) by (rewrite app_length; cbn; lia). rewrite E2, IH by auto.
      destruct (run_selected f s1 ks xs) as [s2 ys]. cbn [fst snd]. now rewrite <- app_assoc.
    - rewrite E. replace (pre ++ x :: xs) with ((pre ++ [x]) ++ xs) by now rewrite <- app_assoc. rewrite IH by auto.
      destruct (run_selected f s ks xs) as [s2 ys]. cbn [fst snd]. now rewrite <- app_assoc.
  Qed.
  Lemma apply_mask_ok ks xs s : length ks = length xs -> (length xs <= 31)%nat -> v_apply_mask zero f xs (to_int_spec ks) s = Some (run_selected f s ks xs).
  Proof.
    intros L H. unfold v_apply_mask. rewrite where_ok by lia. cbn [option_map]. f_equal. rewrite true_indices_from.
    pose proof (apply_mask_steps ks xs [] s L) as E. cbn [length app Z.of_nat] in E. rewrite E. now destruct (run_selected f s ks xs).
  Qed.
  Lemma run_selected_length : forall ks xs s, length ks = length xs -> length (snd (run_selected f s ks xs)) = length xs.
  Proof.
    induction ks as [|b ks IH]; intros [|x xs] s L; try discriminate; [reflexivity|]. cbn [run_selected]. injection L as L.
    destruct (if b then f s x else (s, x)) as [s1 y]. specialize (IH xs s1 L). destruct (run_selected f s1 ks xs). cbn in *. now rewrite IH.
  Qed.
  Lemma run_calls_len {X Y} (g : S -> X -> S * Y) : forall xs s, length (snd (run_calls g s xs)) = length xs.
  Proof. induction xs as [|x xs IH]; intros s; [reflexivity|]. cbn [run_calls]. destruct (g s x) as [s1 y]. specialize (IH s1). destruct (run_calls g s1 xs). cbn in *. now rewrite IH. Qed.
  Lemma run_calls_app2 {X Y} (g : S -> X -> S * Y) : forall a b s, run_calls g s (a ++ b) =
    (fst (run_calls g (fst (run_calls g s a)) b), snd (run_calls g s a) ++ snd (run_calls g (fst (run_calls g s a)) b)).
  Proof.
    induction a as [|x a IH]; intros b s; cbn [app run_calls]; [cbn; now destruct (run_calls g s b)|].
    destruct (g s x) as [s1 y]. rewrite IH. destruct (run_calls g s1 a) as [s2 ys]. reflexivity.
  Qed.
  Lemma run_selected_app : forall ks ls xs ys s, length ks = length xs -> run_selected f s (ks ++ ls) (xs ++ ys) =
    (fst (run_selected f (fst (run_selected f s ks xs)) ls ys), snd (run_selected f s ks xs) ++ snd (run_selected f (fst (run_selected f s ks xs)) ls ys)).
  Proof.
    induction ks as [|b ks IH]; intros ls [|x xs] ys s L; try discriminate; cbn [app run_selected]; [cbn; now destruct (run_selected f s ls ys)|].
    injection L as L. destruct (if b then f s x else (s, x)) as [s1 y]. rewrite IH by auto. destruct (run_selected f s1 ks xs) as [s2 zs]. reflexivity.
  Qed.
  Lemma native_apply_ok xs s : native_apply zero f xs s = run_calls f s xs.
  Proof.
    destruct xs as [|x [|y xs]]; try (apply apply_ok; reflexivity). cbn. now destruct (f s x).
  Qed.
  Lemma tree_apply_ok native : widths_ok native -> forall n t, wf native n t -> forall s,
    fst (apply zero f t s) = fst (run_calls f s (to_list t)) /\ to_list (snd (apply zero f t s)) = snd (run_calls f s (to_list t)) /\ wf native n (snd (apply zero f t s)).
  Proof.
    intros W n t Wt. induction Wt as [n xs N L|n d0 d1 N W0 IH0 W1 IH1]; intros s; cbn [apply].
    - rewrite native_apply_ok. pose proof (run_calls_len f xs s) as LR. destruct (run_calls f s xs) as [s' ys] eqn:E. cbn [fst snd to_list] in *. rewrite E.
      split; [reflexivity|]. split; [reflexivity|]. constructor; [exact N|congruence].
    - destruct (IH0 s) as (A0 & B0 & C0). destruct (apply zero f d0 s) as [s0 r0]. cbn [fst snd] in *.
      destruct (IH1 s0) as (A1 & B1 & C1). destruct (apply zero f d1 s0) as [s1 r1]. cbn [fst snd to_list] in *. rewrite run_calls_app2. cbn [fst snd].
      rewrite <- A0. split; [exact A1|]. split; [now rewrite B0, B1|]. now constructor.
  Qed.
  Lemma native_apply_mask_ok w xs ks s : width_ok w -> sse_native w (length xs) = true -> length ks = length xs ->
    native_apply_mask zero f w xs ks s = Some (run_selected f s ks xs).
  Proof.
    intros Hw N L. assert (D : length xs = 1%nat \/ (length xs = 16 / w)%nat) by (unfold sse_native in N; apply orb_prop in N; destruct N as [N|N]; apply Nat.eqb_eq in N; auto).
    assert (R : (16 / w <= 8)%nat /\ (2 <= 16 / w)%nat) by (destruct Hw as [->|[->| ->]]; cbn; lia).
    destruct D as [D|D].
    - destruct xs as [|x [|]]; try discriminate. destruct ks as [|b [|]]; try discriminate. cbn. destruct b; [now destruct (f s x)|reflexivity].
    - unfold native_apply_mask. destruct xs as [|x [|x2 xs]]; try (cbn in D; lia).
      assert (E : m_to_int w (mask_reg w ks) = to_int_spec ks) by (apply m_to_int_ok; [exact Hw|congruence]). rewrite E. apply apply_mask_ok; lia.
  Qed.
  Lemma tree_apply_mask_ok w : width_ok w -> widths_ok (sse_native w) -> forall n t, wf (sse_native w) n t -> forall k s, wf (sse_native w) n k ->
    exists t', apply_mask zero f w t k s = Some (fst (run_selected f s (to_list k) (to_list t)), t') /\
      to_list t' = snd (run_selected f s (to_list k) (to_list t)) /\ wf (sse_native w) n t'.
  Proof.
    intros Hw W n t Wt. induction Wt as [n xs N L|n d0 d1 N W0 IH0 W1 IH1]; intros k s Wk; inversion Wk as [n' ks N' Lk|n' k0 k1 N' K0 K1]; subst; try congruence; cbn [apply_mask].
    - rewrite (native_apply_mask_ok w xs ks s Hw N Lk). cbn [option_map to_list]. pose proof (run_selected_length ks xs s Lk) as LR.
      eexists. split; [reflexivity|]. cbn [to_list]. split; [reflexivity|]. constructor; [exact N|exact LR].
    - destruct (IH0 k0 s K0) as (r0 & A0 & B0 & C0). rewrite A0. cbn [obind fst snd].
      destruct (IH1 k1 (fst (run_selected f s (to_list k0) (to_list d0))) K1) as (r1 & A1 & B1 & C1). rewrite A1. cbn [obind fst snd to_list].
      rewrite run_selected_app. 2:{ destruct (wf_size _ W _ _ K0) as (_ & La & _). destruct (wf_size _ W _ _ W0) as (_ & Lb & _). congruence. }
      cbn [fst snd]. eexists. split; [reflexivity|]. cbn [to_list]. split; [now rewrite B0, B1|]. now constructor.
  Qed.
End Steps.

Lemma call_ok {A} (zero : A) xs : v_call zero xs = xs.
Proof. unfold v_call. change (fun i => znth zero xs i) with (znth zero xs). apply tab_znth. Qed.
Lemma call_mask_ok {A} (zero : A) xs ks : length ks = length xs -> (length xs <= 31)%nat ->
  v_call_mask zero xs (to_int_spec ks) = Some (map fst (filter snd (combine xs ks))).
Proof.
  intros L H. unfold v_call_mask. rewrite where_ok by lia. cbn [option_map]. f_equal. rewrite true_indices_from.
  enough (G : forall ks xs pre, length ks = length xs -> map (znth zero (pre ++ xs)) (set_from (Z.of_nat (length pre)) ks) = map fst (filter snd (combine xs ks))) by (apply (G ks xs []); exact L).
  clear. induction ks as [|b ks IH]; intros [|x xs] pre L; try discriminate; [reflexivity|]. injection L as L. cbn [set_from combine filter snd].
  specialize (IH xs (pre ++ [x]) L). rewrite app_length in IH. cbn [length] in IH. replace (Z.of_nat (length pre + 1)) with (Z.of_nat (length pre) + 1) in IH by lia.
  rewrite <- app_assoc in IH. cbn [app] in IH. destruct b; cbn [app map fst]; [rewrite znth_mid|]; now rewrite IH.
Qed.

Section Values.
  Context {A : Type} (eq : A -> A -> bool).
  Hypothesis sym : forall a b, eq a b = true -> eq b a = true.
  Hypothesis trans : forall a b c, eq a b = true -> eq b c = true -> eq a c = true.
  Lemma values_heads : forall rest value prev, value = prev \/ eq prev value = true ->
    values_loop (fun a b => negb (eq a b)) value rest = map snd (filter (fun p => negb (eq (snd p) (fst p))) (combine (prev :: rest) rest)).
  Proof.
    induction rest as [|x rest IH]; intros value prev H; [reflexivity|]. cbn [values_loop combine filter fst snd].
    assert (E : eq x prev = eq x value).
    { destruct H as [->|H]; [reflexivity|]. destruct (eq x prev) eqn:E1, (eq x value) eqn:E2; auto.
      - now rewrite (trans _ _ _ E1 H) in E2.
      - now rewrite (trans _ _ _ E2 (sym _ _ H)) in E1. }
    rewrite E. destruct (eq x value) eqn:E2; cbn [negb map snd].
    - apply IH. auto.
    - f_equal. apply IH. auto.
  Qed.
  Lemma call_values_ok xs : call_with_values_sorted (fun a b => negb (eq a b)) xs = run_heads eq xs.
  Proof. destruct xs as [|x rest]; [reflexivity|]. unfold call_with_values_sorted, run_heads. f_equal. apply values_heads. auto. Qed.
End Values.

(** with true equality and a sorted vector: every value exactly once *)
Section SortedValues.
  Context {A : Type} (eq le : A -> A -> bool).
  Hypothesis eq_true : forall a b, eq a b = true <-> a = b.
  Hypothesis antisym : forall a b, le a b = true -> le b a = true -> a = b.
  Lemma values_in : forall rest value y, In y (values_loop (fun a b => negb (eq a b)) value rest) -> In y rest.
  Proof.
    induction rest as [|x rest IH]; intros value y H; [exact H|]. cbn [values_loop] in H. destruct (negb (eq x value)); cbn; [destruct H as [->|H]; auto|]; eauto.
  Qed.
  Lemma values_all : forall rest value y, In y rest -> y = value \/ In y (values_loop (fun a b => negb (eq a b)) value rest).
  Proof.
    induction rest as [|x rest IH]; intros value y H; [destruct H|]. cbn [values_loop]. destruct (eq x value) eqn:E; cbn [negb].
    - apply eq_true in E. subst x. destruct H as [->|H]; auto.
    - cbn [In]. destruct H as [->|H]; [auto|]. destruct (IH x y H) as [->|]; auto.
  Qed.
  Lemma values_nodup : forall rest value, sorted_spec le (value :: rest) -> NoDup (value :: values_loop (fun a b => negb (eq a b)) value rest).
  Proof.
    induction rest as [|x rest IH]; intros value [H1 H2]; [repeat constructor; auto|]. cbn [values_loop]. destruct (eq x value) eqn:E; cbn [negb].
    - apply IH. split; [|apply H2]. intros y Hy. apply H1. now right.
    - constructor; [|now apply IH]. intros I. assert (I' : In value (x :: rest)) by (destruct I as [->|I]; [now left|right; eapply values_in; eauto]).
      destruct I' as [->|I']. { assert (eq value value = true) by now apply eq_true. congruence. }
      assert (x = value). { apply antisym; [apply H2; exact I'|apply H1; now left]. } apply eq_true in H. congruence.
  Qed.
  Lemma sorted_values xs : sorted_spec le xs -> NoDup (call_with_values_sorted (fun a b => negb (eq a b)) xs) /\
    (forall y, In y (call_with_values_sorted (fun a b => negb (eq a b)) xs) <-> In y xs).
  Proof.
    destruct xs as [|x rest]; intros O; [split; [constructor|reflexivity]|]. cbn [call_with_values_sorted]. split; [now apply values_nodup|].
    intros y. split.
    - intros [->|H]; [now left|]. right. eapply values_in; eauto.
    - intros [->|H]; [now left|]. cbn. destruct (values_all rest x y H); auto.
  Qed.
End SortedValues.
