(** Proofs about the SimdArray model: partialSum and sorted. *)
From Coq Require Import ZArith List Bool Lia Permutation.
From Verif.Spec Require Import Seq NativeSpec.
From Verif.Model Require Import SplitSize SimdArray.
From Verif.Proof Require Import SeqP SplitSizeP SimdArrayP SimdArrayMoveP.
Import ListNotations.
Local Open Scope Z_scope.

Lemma scan_app A add (acc : A) xs ys :
  scan_spec add acc (xs ++ ys) = scan_spec add acc xs ++ scan_spec add (last (scan_spec add acc xs) acc) ys.
Proof.
  revert acc; induction xs as [|x xs IH]; intros acc; [reflexivity|].
  cbn [scan_spec app]. rewrite IH. cbn [app]. f_equal. f_equal.
  destruct xs as [|x' xs']; [reflexivity|].
  cbn [scan_spec]. set (l := scan_spec add (add (add acc x) x') xs').
  f_equal. cbn [last]. clearbody l. destruct l; [reflexivity|].
  generalize (add (add acc x) x'). intros.
  revert a; induction l; intros; [reflexivity|]. cbn [last] in *. destruct l; auto. 
Qed.

Lemma scan_length A add (acc : A) xs : length (scan_spec add acc xs) = length xs.
Proof. revert acc; induction xs; cbn; auto. Qed.
Lemma partial_sum_length A add (xs : list A) : length (partial_sum_spec add xs) = length xs.
Proof. destruct xs; cbn; auto. now rewrite scan_length. Qed.

Lemma last_znth A (d : A) xs : xs <> [] -> znth d xs (Z.of_nat (length xs) - 1) = last xs d.
Proof.
  intros H. destruct (exists_last H) as (ys & y & ->). rewrite app_length. cbn [length].
  rewrite znth_app. destruct (Z.ltb_spec (Z.of_nat (length ys + 1) - 1) (Z.of_nat (length ys))); [lia|].
  rewrite last_last. replace (Z.of_nat (length ys + 1) - 1 - Z.of_nat (length ys)) with 0 by lia. reflexivity.
Qed.

Lemma last_indep A (d d' : A) xs : xs <> [] -> last xs d = last xs d'.
Proof. induction xs as [|x xs IH]; [congruence|]. intros _. cbn [last]. destruct xs; auto. apply IH. congruence. Qed.

(** Partial sums of a concatenation, adding the carry on the right. *)
Lemma partial_sum_app A add (xs ys : list A) d y :
  (forall a b, add a b = add b a) -> xs <> [] ->
  partial_sum_spec add (xs ++ y :: ys) =
  partial_sum_spec add xs ++ partial_sum_spec add (add y (last (partial_sum_spec add xs) d) :: ys).
Proof.
  intros C. destruct xs as [|x xs]; [congruence|]. intros _.
  cbn [app partial_sum_spec]. f_equal. rewrite scan_app. f_equal.
  cbn [scan_spec]. 
  assert (E : last (x :: scan_spec add x xs) d = last (scan_spec add x xs) x).
  { destruct (scan_spec add x xs) as [|s l] eqn:Q; [reflexivity|]. cbn [last]. 
    change (last (s :: l) d = last (s :: l) x). apply last_indep. congruence. }
  rewrite E. rewrite (C y). reflexivity.
Qed.

Fixpoint insert {A} (le : A -> A -> bool) (x : A) (l : list A) : list A :=
  match l with [] => [x] | y :: l' => if le x y then x :: y :: l' else y :: insert le x l' end.

Lemma insert_perm A le (x : A) l : Permutation (insert le x l) (x :: l).
Proof.
  induction l as [|y l IH]; cbn; auto. destruct (le x y); auto.
  rewrite IH. apply perm_swap.
Qed.

Lemma insert_sorted A le (x : A) l : total_order le -> sorted_spec le l -> sorted_spec le (insert le x l).
Proof.
  intros T. induction l as [|y l IH]; cbn [insert sorted_spec].
  - intros _. split; [intros y []|exact I].
  - intros [H1 H2]. destruct (le x y) eqn:E; cbn [sorted_spec].
    + split; [|auto]. intros z [<-|Hz]; auto. eapply (to_trans _ T); eauto.
    + split; auto. intros z Hz. apply (Permutation_in _ (insert_perm _ _ _ _)) in Hz.
      destruct Hz as [<-|Hz]; auto. destruct (to_total _ T x y); congruence.
Qed.

Lemma sort_exists A le (xs : list A) : total_order le -> exists q, sorted_spec le q /\ Permutation q xs.
Proof.
  intros T. induction xs as [|x xs (q & S & P)]; [exists []; cbn; auto|].
  exists (insert le x q). split; [now apply insert_sorted|]. rewrite insert_perm. auto.
Qed.

Lemma total_refl A le (x : A) : total_order le -> le x x = true.
Proof. intros T. destruct (to_total _ T x x); auto. Qed.

Lemma sorted_nth A le (d : A) xs i j : total_order le -> sorted_spec le xs ->
  (i <= j < length xs)%nat -> le (nth i xs d) (nth j xs d) = true.
Proof.
  intros T. revert i j. induction xs as [|x xs IH]; intros i j S H; cbn [length] in H; [lia|].
  destruct S as [S1 S2]. destruct i as [|i], j as [|j]; cbn [nth]; try lia.
  - now apply total_refl.
  - apply S1. apply nth_In. lia.
  - apply IH; auto. lia.
Qed.

Lemma sorted_repeat A le (x : A) n : total_order le -> sorted_spec le (repeat x n).
Proof.
  intros T. induction n; cbn; auto. split; auto. intros y Hy. apply repeat_spec in Hy. subst.
  now apply total_refl.
Qed.

Lemma minmax_perm A (mn mx : A -> A -> A) a b :
  (forall x y, Permutation [mn x y; mx x y] [x; y]) -> length a = length b ->
  Permutation (map2 mn a b ++ map2 mx a b) (a ++ b).
Proof.
  intros H. revert b; induction a as [|x a IH]; intros [|y b] HL; cbn [length] in HL; try lia; cbn [map2 app]; auto.
  transitivity (mn x y :: mx x y :: map2 mn a b ++ map2 mx a b).
  { constructor. symmetry. apply Permutation_middle. }
  transitivity ([x; y] ++ (a ++ b)).
  { change (mn x y :: mx x y :: map2 mn a b ++ map2 mx a b) with ([mn x y; mx x y] ++ (map2 mn a b ++ map2 mx a b)).
    apply Permutation_app; auto. }
  cbn [app]. constructor. apply Permutation_middle.
Qed.

Section SA.
  Context {A : Type} (native : nat -> bool) (ops : native_ops A) (zero : A).
  Hypothesis Hw : widths_ok native.
  Notation wf := (wf native).
  Notation generate := (generate native).
  Notation cast := (cast native zero).
  Notation X := (znth zero).
  Notation good := (good native).

  (** [yields n r xs]: [r] is defined and is a well-formed array with elements [xs]. *)
  Definition yields n (r : option (sa A)) (xs : list A) : Prop :=
    exists t, r = Some t /\ wf n t /\ to_list t = xs.

  Lemma add_first_wf add v n (t : sa A) : wf n t -> wf n (add_first add v t).
  Proof.
    induction 1; cbn [add_first]; [|now constructor].
    destruct xs; constructor; auto.
  Qed.
  Lemma add_first_list add v n (t : sa A) : wf n t ->
    to_list (add_first add v t) = match to_list t with [] => [] | x :: xs => add x v :: xs end.
  Proof.
    induction 1 as [n xs N L|n l r N Wl IHl Wr IHr]; cbn [add_first to_list]; [now destruct xs|].
    rewrite IHl. pose proof (wf_size native Hw _ _ Wl) as (_ & L & P).
    destruct (to_list l); cbn in *; [lia|reflexivity].
  Qed.

  Lemma partial_sum_f_yields add : (forall a b, add a b = add b a) -> native_partial_sum_ok native add ops ->
    forall fuel n t, wf n t -> (n < fuel)%nat ->
    yields n (partial_sum_f ops zero add fuel t) (partial_sum_spec add (to_list t)).
  Proof.
    intros C Hps. induction fuel as [|fuel IH]; intros n t W HF; [lia|].
    pose proof (wf_size native Hw _ _ W) as (S1 & S2 & S3).
    destruct t as [xs|d0 d1]; cbn [partial_sum_f].
    - inversion W as [n' xs' N L|]; subst n' xs' n. rewrite Hps by auto.
      eexists. split; [reflexivity|]. split; [|reflexivity]. constructor; auto. apply partial_sum_length.
    - inversion W as [|n' l r E W0 W1]; subst n' l r.
      pose proof (not_native_ge2 native Hw n S3 E) as H2.
      destruct (right_left n H2) as [R1 R2].
      destruct (IH _ d0 W0 ltac:(lia)) as (p0 & -> & Wp0 & Lp0). cbn [obind].
      pose proof (wf_size native Hw _ _ W0) as (_ & L0 & P0).
      pose proof (wf_size native Hw _ _ W1) as (_ & L1 & P1).
      rewrite (wf_isz native Hw _ _ W0).
      rewrite (get_ok native zero Hw _ p0 _ Wp0) by lia. cbn [obind].
      set (v := X (to_list p0) (Z.of_nat (left_size n) - 1)).
      destruct (IH _ (add_first add v d1) (add_first_wf add v _ _ W1) ltac:(lia)) as (p1 & -> & Wp1 & Lp1).
      cbn [obind]. eexists. split; [reflexivity|]. split; [now constructor|].
      cbn [to_list]. rewrite Lp0, Lp1, (add_first_list add v _ _ W1).
      destruct (to_list d1) as [|y ys]; [cbn in *; lia|].
      assert (NE : to_list d0 <> []) by (destruct (to_list d0); cbn in *; [lia|congruence]).
      rewrite (partial_sum_app _ add _ _ zero) by auto.
      replace v with (last (partial_sum_spec add (to_list d0)) zero); [reflexivity|].
      unfold v. rewrite Lp0. rewrite <- L0, <- (partial_sum_length _ add (to_list d0)).
      symmetry. apply last_znth. intros Q. apply (f_equal (@length A)) in Q. rewrite partial_sum_length in Q. cbn in Q. lia.
  Qed.

  Lemma zip_with_yields f : forall n a b, wf n a -> wf n b ->
    yields n (zip_with f a b) (map2 f (to_list a) (to_list b)).
  Proof.
    intros n a b W; revert b; induction W as [n xs N L|n l r N Wl IHl Wr IHr]; intros b Wb.
    - inversion Wb as [n' ys N' L'|]; subst b; [|congruence]. cbn.
      eexists. split; [reflexivity|]. split; [|reflexivity]. constructor; auto. rewrite map2_length. lia.
    - inversion Wb as [|n' l' r' N' Wl' Wr']; subst b; [congruence|]. cbn [zip_with].
      destruct (IHl _ Wl') as (t0 & -> & W0 & L0). destruct (IHr _ Wr') as (t1 & -> & W1 & L1). cbn [obind].
      eexists. split; [reflexivity|]. split; [now constructor|]. cbn [to_list].
      rewrite L0, L1. rewrite map2_app; auto. now rewrite (wf_len native Hw _ _ Wl), (wf_len native Hw _ _ Wl').
  Qed.

  Hypothesis Hm : native_moves_ok native zero ops.

  Lemma reversed_yields n t : wf n t -> yields n (reversed native ops zero t) (rev (to_list t)).
  Proof.
    intros W. destruct (reversed_good native ops zero Hw Hm n t W) as (r & E & Wr & L).
    exists r. repeat split; auto. rewrite L. symmetry.
    pose proof (wf_len native Hw _ _ W).
    apply list_ext_tab with (d := zero); [now rewrite rev_length|].
    intros z Hz. rewrite znth_rev. f_equal. lia.
  Qed.

  Context (le : A -> A -> bool) (mn mx : A -> A -> A) (top : A).
  Hypothesis T : total_order le.
  Hypothesis Hmn : forall x y, mn x y = if le x y then x else y.
  Hypothesis Hmx : forall x y, mx x y = if le x y then y else x.
  Hypothesis Htop : forall x, le x top = true.
  Hypothesis Hsort : native_sorted_ok native le ops.

  Definition sorts n (r : option (sa A)) (xs : list A) : Prop :=
    exists t, r = Some t /\ wf n t /\ sorted_spec le (to_list t) /\ Permutation (to_list t) xs.

  Lemma bitonic_split a b : sorted_spec le a -> sorted_spec le b -> length a = length b ->
    forall x y, In x (map2 mn a (rev b)) -> In y (map2 mx a (rev b)) -> le x y = true.
  Proof.
    intros Sa Sb HL x y Hx Hy.
    apply In_nth with (d := zero) in Hx. destruct Hx as (i & Hi & Ei).
    apply In_nth with (d := zero) in Hy. destruct Hy as (j & Hj & Ej).
    rewrite map2_length, rev_length in Hi, Hj.
    rewrite map2_nth with (d1 := zero) (d2 := zero) in Ei by (rewrite ?rev_length; lia).
    rewrite map2_nth with (d1 := zero) (d2 := zero) in Ej by (rewrite ?rev_length; lia).
    rewrite rev_nth in Ei by lia. rewrite rev_nth in Ej by lia.
    assert (M1 : le x (nth i a zero) = true /\ le x (nth (length b - S i) b zero) = true).
    { rewrite <- Ei, Hmn. destruct (le (nth i a zero) (nth (length b - S i) b zero)) eqn:Q.
      - split; auto. now apply total_refl.
      - split; [|now apply total_refl]. destruct (to_total _ T (nth i a zero) (nth (length b - S i) b zero)); congruence. }
    assert (M2 : le (nth j a zero) y = true /\ le (nth (length b - S j) b zero) y = true).
    { rewrite <- Ej, Hmx. destruct (le (nth j a zero) (nth (length b - S j) b zero)) eqn:Q.
      - split; auto. now apply total_refl.
      - split; [now apply total_refl|]. destruct (to_total _ T (nth j a zero) (nth (length b - S j) b zero)); congruence. }
    destruct (Nat.le_ge_cases i j).
    - eapply (to_trans _ T); [apply (proj1 M1)|]. eapply (to_trans _ T); [|apply (proj1 M2)]. apply sorted_nth; auto. lia.
    - eapply (to_trans _ T); [apply (proj2 M1)|]. eapply (to_trans _ T); [|apply (proj2 M2)]. apply sorted_nth; auto. lia.
  Qed.

  Lemma mm_perm x y : Permutation [mn x y; mx x y] [x; y].
  Proof. rewrite Hmn, Hmx. destruct (le x y); auto. apply perm_swap. Qed.

  Lemma sorted_pow2 : forall fuel n t, (exists j, n = Nat.pow 2 j) -> wf n t -> (n <= fuel)%nat ->
    sorts n (sorted_f native ops zero mn mx top fuel t) (to_list t).
  Proof.
    induction fuel as [|fuel IH]; intros n t P W HF; pose proof (wf_size native Hw _ _ W) as (S1 & S2 & S3); [lia|].
    destruct t as [xs|d0 d1]; cbn [sorted_f].
    - inversion W as [n' xs' N L|]; subst n' xs' n.
      destruct (Hsort xs N) as [Q1 Q2].
      eexists. split; [reflexivity|]. split; [|cbn; auto]. constructor; auto. now apply Permutation_length.
    - inversion W as [|n' l r E W0 W1]; subst n' l r.
      pose proof (not_native_ge2 native Hw n S3 E) as H2.
      destruct (pow2_halves native n E H2 P) as (j & Ej & E0 & E1).
      destruct (right_left n H2) as [R1 R2].
      assert (EH : right_size n = left_size n) by congruence.
      assert (Ph : exists j, left_size n = Nat.pow 2 j) by eauto.
      rewrite (wf_sz native Hw _ _ W0), (wf_sz native Hw _ _ W1).
      rewrite EH in *. rewrite Nat.eqb_refl. set (h := left_size n) in *.
      destruct (IH h d0 Ph W0 ltac:(lia)) as (a & -> & Wa & Sa & Pa).
      destruct (IH h d1 Ph W1 ltac:(lia)) as (b & -> & Wb & Sb & Pb).
      cbn [obind].
      destruct (reversed_yields h b Wb) as (rb & -> & Wrb & Lrb). cbn [obind].
      destruct (zip_with_yields mn h a rb Wa Wrb) as (lo & -> & Wlo & Llo).
      destruct (zip_with_yields mx h a rb Wa Wrb) as (hi & -> & Whi & Lhi). cbn [obind].
      destruct (IH h lo Ph Wlo ltac:(lia)) as (slo & -> & Wslo & Sslo & Pslo).
      destruct (IH h hi Ph Whi ltac:(lia)) as (shi & -> & Wshi & Sshi & Pshi).
      cbn [obind]. eexists. split; [reflexivity|]. split; [constructor; auto; now rewrite EH|].
      assert (HL : length (to_list a) = length (to_list b)) by (rewrite (wf_len native Hw _ _ Wa), (wf_len native Hw _ _ Wb); auto).
      cbn [to_list]. split.
      + apply sorted_spec_app; auto. intros x y Hx Hy.
        apply (Permutation_in _ Pslo) in Hx. apply (Permutation_in _ Pshi) in Hy.
        rewrite Llo, Lrb in Hx. rewrite Lhi, Lrb in Hy.
        apply (bitonic_split (to_list a) (to_list b)); auto.
      + rewrite Pslo, Pshi, Llo, Lhi, Lrb.
        rewrite minmax_perm by (try apply mm_perm; rewrite rev_length; auto).
        rewrite <- Permutation_rev, Pa, Pb. auto.
  Qed.

  Lemma sorted_all n t : wf n t -> sorts n (sorted native ops zero mn mx top t) (to_list t).
  Proof.
    intros W. pose proof (wf_size native Hw _ _ W) as (S1 & S2 & S3).
    unfold sorted. replace (4 * size t + 2)%nat with (S (4 * n + 1)) by lia.
    destruct t as [xs|d0 d1].
    { apply sorted_pow2; auto; [|lia]. inversion W as [n' xs' N L|]; subst n' xs'. apply Hw. auto. }
    inversion W as [|n' l r E W0 W1]; subst n' l r.
    pose proof (not_native_ge2 native Hw n S3 E) as H2.
    destruct (Nat.eq_dec (left_size n) (right_size n)) as [EH|EH].
    { apply sorted_pow2; auto; [|lia]. now apply halves_pow2. }
    cbn [sorted_f]. rewrite S1. rewrite (wf_sz native Hw _ _ W0), (wf_sz native Hw _ _ W1).
    destruct (Nat.eqb_spec (left_size n) (right_size n)); [congruence|].
    destruct (next_pow2_spec n ltac:(lia)) as (k & EK & K1 & K2). rewrite EK.
    set (m := Nat.pow 2 k) in *.
    set (f := fun i => if i <? Z.of_nat n then X (to_list (Node d0 d1)) i else top).
    assert (Wg : wf m (generate m f)) by (apply generate_wf; auto; lia).
    assert (Lg : to_list (generate m f) = to_list (Node d0 d1) ++ repeat top (m - n)).
    { rewrite generate_list by (auto; lia). symmetry. apply list_ext_tab with (d := zero).
      - rewrite app_length, repeat_length. lia.
      - intros z Hz. rewrite znth_app, S2. unfold f. zcases; auto. rewrite znth_repeat; auto. lia. }
    destruct (sorted_pow2 (4 * n + 1) m (generate m f) (ex_intro _ k eq_refl) Wg ltac:(lia)) as (s & -> & Ws & Ss & Ps).
    cbn [obind]. eexists. split; [reflexivity|]. split; [apply cast_wf; auto; lia|].
    rewrite Lg in Ps.
    destruct (sort_exists _ le (to_list (Node d0 d1)) T) as (q & Sq & Pq).
    assert (Q : to_list s = q ++ repeat top (m - n)).
    { apply sorted_perm_unique with (le := le); auto.
      - intros; now apply total_refl.
      - apply (to_antisym _ T).
      - apply sorted_spec_app; auto; [now apply sorted_repeat|].
        intros x y _ Hy. apply repeat_spec in Hy. subst. auto.
      - rewrite Ps. now rewrite Pq. }
    assert (LQ : length q = n) by (rewrite <- S2; now apply Permutation_length).
    assert (C : to_list (cast n s) = q).
    { rewrite cast_list by (auto; lia). symmetry. apply list_ext_tab with (d := zero); auto.
      intros z Hz. rewrite Q, znth_app, LQ. zcases. reflexivity. }
    rewrite C. auto.
  Qed.
End SA.
