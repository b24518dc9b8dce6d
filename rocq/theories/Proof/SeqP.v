(** Lemmas about the sequence vocabulary. *)
From Coq Require Import ZArith List Bool Lia Permutation.
From Verif.Spec Require Import Seq.
Import ListNotations.
Local Open Scope Z_scope.

Lemma tab_length A n (f : Z -> A) : length (tab n f) = n.
Proof. unfold tab. now rewrite map_length, seq_length. Qed.

Lemma znth_out A (d : A) xs z : z < 0 \/ Z.of_nat (length xs) <= z -> znth d xs z = d.
Proof.
  intros H. unfold znth.
  destruct (Z.leb_spec 0 z), (Z.ltb_spec z (Z.of_nat (length xs))); cbn; auto; lia.
Qed.

Lemma znth_in A (d : A) xs z : 0 <= z < Z.of_nat (length xs) -> znth d xs z = nth (Z.to_nat z) xs d.
Proof.
  intros H. unfold znth.
  destruct (Z.leb_spec 0 z), (Z.ltb_spec z (Z.of_nat (length xs))); cbn; auto; lia.
Qed.

Lemma znth_tab A (d : A) n f z : 0 <= z < Z.of_nat n -> znth d (tab n f) z = f z.
Proof.
  intros H. rewrite znth_in by (rewrite tab_length; lia).
  unfold tab. rewrite nth_indep with (d' := f (Z.of_nat (Z.to_nat z))).
  2: rewrite map_length, seq_length; lia.
  rewrite map_nth with (f := fun i => f (Z.of_nat i)).
  rewrite seq_nth by lia. cbn. f_equal. lia.
Qed.

Lemma znth_app A (d : A) xs ys z :
  znth d (xs ++ ys) z = if z <? Z.of_nat (length xs) then znth d xs z else znth d ys (z - Z.of_nat (length xs)).
Proof.
  destruct (Z.ltb_spec z (Z.of_nat (length xs))).
  - destruct (Z.leb_spec 0 z).
    + rewrite !znth_in by (rewrite ?app_length; lia). rewrite app_nth1 by lia. reflexivity.
    + rewrite !znth_out by (rewrite ?app_length; lia). reflexivity.
  - destruct (Z.ltb_spec z (Z.of_nat (length xs + length ys))).
    + rewrite !znth_in by (rewrite ?app_length; lia). rewrite app_nth2 by lia. f_equal. lia.
    + rewrite !znth_out by (rewrite ?app_length; lia). reflexivity.
Qed.

Lemma list_ext_z A (d : A) xs ys :
  length xs = length ys ->
  (forall z, 0 <= z < Z.of_nat (length xs) -> znth d xs z = znth d ys z) -> xs = ys.
Proof.
  intros HL H. apply nth_ext with (d := d) (d' := d); auto.
  intros n Hn. specialize (H (Z.of_nat n)). rewrite !znth_in in H by lia.
  rewrite !Nat2Z.id in H. apply H. lia.
Qed.

Lemma list_ext_tab A (d : A) xs n f :
  length xs = n ->
  (forall z, 0 <= z < Z.of_nat n -> znth d xs z = f z) -> xs = tab n f.
Proof.
  intros HL H. apply list_ext_z with (d := d); rewrite ?tab_length; auto.
  intros z Hz. rewrite HL in Hz. rewrite znth_tab by lia. apply H. lia.
Qed.

Lemma tab_ext A n (f g : Z -> A) :
  (forall z, 0 <= z < Z.of_nat n -> f z = g z) -> tab n f = tab n g.
Proof.
  intros H. unfold tab. apply map_ext_in. intros a Ha. apply in_seq in Ha. apply H. lia.
Qed.

Lemma tab_znth A (d : A) xs : tab (length xs) (znth d xs) = xs.
Proof. symmetry. apply list_ext_tab with (d := d); auto. Qed.

Lemma tab_app A n m (f : Z -> A) :
  tab (n + m) f = tab n f ++ tab m (fun i => f (Z.of_nat n + i)).
Proof.
  assert (G : forall m k n, map (fun i => f (Z.of_nat i)) (seq (n + k) m)
                    = map (fun i => f (Z.of_nat n + Z.of_nat i)) (seq k m)).
  { clear. induction m as [|m IH]; intros k n; cbn; auto. f_equal.
    - f_equal. lia.
    - rewrite <- IH. f_equal. f_equal. lia. }
  unfold tab. rewrite seq_app, map_app. f_equal. cbn [Nat.add].
  rewrite <- (G m 0%nat n). f_equal. f_equal. lia.
Qed.

Lemma tab_0 A (f : Z -> A) : tab 0 f = [].
Proof. reflexivity. Qed.

Lemma znth_firstn A (d : A) n xs z :
  z < Z.of_nat n -> znth d (firstn n xs) z = znth d xs z.
Proof.
  intros H. destruct (Z.leb_spec 0 z); [|rewrite !znth_out by lia; auto].
  destruct (Z.ltb_spec z (Z.of_nat (length xs))).
  - rewrite !znth_in by (rewrite ?firstn_length; lia).
    rewrite <- (firstn_skipn n xs) at 2. rewrite app_nth1; auto. rewrite firstn_length; lia.
  - rewrite !znth_out by (rewrite ?firstn_length; lia). auto.
Qed.

Lemma znth_skipn A (d : A) n xs z :
  0 <= z -> znth d (skipn n xs) z = znth d xs (z + Z.of_nat n).
Proof.
  intros H.
  destruct (Z.ltb_spec (z + Z.of_nat n) (Z.of_nat (length xs))).
  - rewrite !znth_in by (rewrite ?skipn_length; lia).
    rewrite <- (firstn_skipn n xs) at 2. rewrite app_nth2; rewrite firstn_length; [|lia].
    f_equal. lia.
  - rewrite !znth_out by (rewrite ?skipn_length; lia). auto.
Qed.

Lemma znth_repeat A (d x : A) n z : 0 <= z < Z.of_nat n -> znth d (repeat x n) z = x.
Proof.
  intros H. rewrite znth_in by (rewrite repeat_length; lia).
  rewrite nth_indep with (d' := x) by (rewrite repeat_length; lia). apply nth_repeat.
Qed.

Lemma znth_repeat_d A (d : A) n z : znth d (repeat d n) z = d.
Proof.
  destruct (Z.leb_spec 0 z), (Z.ltb_spec z (Z.of_nat n)).
  1: apply znth_repeat; lia.
  all: apply znth_out; rewrite repeat_length; lia.
Qed.

Lemma znth_rev A (d : A) xs z : znth d (rev xs) z = znth d xs (Z.of_nat (length xs) - 1 - z).
Proof.
  destruct (Z.leb_spec 0 z), (Z.ltb_spec z (Z.of_nat (length xs))).
  - rewrite !znth_in by (rewrite ?rev_length; lia). rewrite rev_nth by lia. f_equal. lia.
  - rewrite !znth_out by (rewrite ?rev_length; lia). auto.
  - rewrite !znth_out by (rewrite ?rev_length; lia). auto.
  - lia.
Qed.

Lemma map2_length A B C (f : A -> B -> C) xs ys :
  length (map2 f xs ys) = Nat.min (length xs) (length ys).
Proof. revert ys; induction xs; destruct ys; cbn; auto. Qed.

Lemma map2_app A B C (f : A -> B -> C) xs ys xs' ys' :
  length xs = length ys -> map2 f (xs ++ xs') (ys ++ ys') = map2 f xs ys ++ map2 f xs' ys'.
Proof.
  revert ys; induction xs; destruct ys; cbn; intros; try discriminate; auto. f_equal; auto.
Qed.

Lemma map2_nth A B C (f : A -> B -> C) d1 d2 d3 xs ys n :
  (n < length xs)%nat -> (n < length ys)%nat ->
  nth n (map2 f xs ys) d3 = f (nth n xs d1) (nth n ys d2).
Proof.
  revert ys n; induction xs; destruct ys, n; cbn; intros; try lia; auto.
  apply IHxs; lia.
Qed.

Lemma znth_map2 A B C (f : A -> B -> C) d1 d2 d3 xs ys z :
  0 <= z < Z.of_nat (length xs) -> length xs = length ys ->
  znth d3 (map2 f xs ys) z = f (znth d1 xs z) (znth d2 ys z).
Proof.
  intros. rewrite !znth_in by (rewrite ?map2_length; lia).
  apply map2_nth; lia.
Qed.

Lemma map3_app A B C D (f : A -> B -> C -> D) xs ys zs xs' ys' zs' :
  length xs = length ys -> length ys = length zs ->
  map3 f (xs ++ xs') (ys ++ ys') (zs ++ zs') = map3 f xs ys zs ++ map3 f xs' ys' zs'.
Proof.
  revert ys zs; induction xs; destruct ys, zs; cbn; intros; try discriminate; auto. f_equal; auto.
Qed.

Lemma map3_length A B C D (f : A -> B -> C -> D) xs ys zs :
  length xs = length ys -> length ys = length zs -> length (map3 f xs ys zs) = length xs.
Proof.
  revert ys zs; induction xs; destruct ys, zs; cbn; intros; try discriminate; auto.
Qed.

Lemma map3_nth A B C D (f : A -> B -> C -> D) d1 d2 d3 d4 xs ys zs n :
  (n < length xs)%nat -> length xs = length ys -> length ys = length zs ->
  nth n (map3 f xs ys zs) d4 = f (nth n xs d1) (nth n ys d2) (nth n zs d3).
Proof.
  revert ys zs n; induction xs; destruct ys, zs, n; cbn; intros; try lia; auto.
  apply IHxs; lia.
Qed.

Lemma znth_map3 A B C D (f : A -> B -> C -> D) d1 d2 d3 d4 xs ys zs z :
  0 <= z < Z.of_nat (length xs) -> length xs = length ys -> length ys = length zs ->
  znth d4 (map3 f xs ys zs) z = f (znth d1 xs z) (znth d2 ys z) (znth d3 zs z).
Proof.
  intros. rewrite !znth_in by (rewrite ?map3_length; lia).
  apply map3_nth; lia.
Qed.

Lemma select_app A m m' (xs xs' : list A) :
  length m = length xs -> select_spec (m ++ m') (xs ++ xs') = select_spec m xs ++ select_spec m' xs'.
Proof.
  revert xs; induction m; destruct xs; cbn; intros; try discriminate; auto.
  rewrite IHm by lia. now rewrite app_assoc.
Qed.

Lemma firstn_app_exact A n (xs ys : list A) : length xs = n -> firstn n (xs ++ ys) = xs.
Proof. intros <-. rewrite firstn_app, Nat.sub_diag, firstn_all, firstn_O. apply app_nil_r. Qed.

Lemma skipn_app_exact A n (xs ys : list A) : length xs = n -> skipn n (xs ++ ys) = ys.
Proof. intros <-. rewrite skipn_app, Nat.sub_diag, skipn_all. reflexivity. Qed.

Lemma interleave_length A (xs ys : list A) :
  length xs = length ys -> length (interleave_spec xs ys) = (2 * length xs)%nat.
Proof. revert ys; induction xs; destruct ys; cbn; intros; try discriminate; auto. rewrite IHxs by lia. lia. Qed.

Lemma interleave_app A (xs ys xs' ys' : list A) :
  length xs = length ys ->
  interleave_spec (xs ++ xs') (ys ++ ys') = interleave_spec xs ys ++ interleave_spec xs' ys'.
Proof.
  revert ys; induction xs; destruct ys; cbn; intros; try discriminate; auto. rewrite IHxs by lia. reflexivity.
Qed.

Lemma sorted_spec_app A le (xs ys : list A) :
  sorted_spec le xs -> sorted_spec le ys ->
  (forall x y, In x xs -> In y ys -> le x y = true) -> sorted_spec le (xs ++ ys).
Proof.
  induction xs as [|x xs IH]; cbn; intros Hx Hy H; auto.
  destruct Hx as [H1 H2]. split.
  - intros y Hin. apply in_app_or in Hin. destruct Hin; auto.
  - apply IH; auto.
Qed.

Lemma sorted_spec_app_inv A le (xs ys : list A) :
  sorted_spec le (xs ++ ys) ->
  sorted_spec le xs /\ sorted_spec le ys /\ (forall x y, In x xs -> In y ys -> le x y = true).
Proof.
  induction xs as [|x xs IH]; cbn; intros H; [repeat split; auto; tauto|].
  destruct H as [H1 H2]. destruct (IH H2) as (A1 & A2 & A3).
  repeat split; auto.
  - intros y Hy. apply H1. apply in_or_app; auto.
  - intros x' y [->|Hx'] Hy; auto. apply H1. apply in_or_app; auto.
Qed.

(** Sorted permutations are unique for antisymmetric orders. *)
Lemma sorted_perm_unique A le (xs ys : list A) :
  (forall x, le x x = true) ->
  (forall x y, le x y = true -> le y x = true -> x = y) ->
  sorted_spec le xs -> sorted_spec le ys -> Permutation xs ys -> xs = ys.
Proof.
  intros Hrefl Hanti. revert ys. induction xs as [|x xs IH]; intros ys Hx Hy HP.
  - apply Permutation_nil in HP. now subst.
  - destruct ys as [|y ys]; [apply Permutation_sym, Permutation_nil in HP; discriminate|].
    cbn in Hx, Hy. destruct Hx as [Hx1 Hx2], Hy as [Hy1 Hy2].
    assert (x = y).
    { assert (In x (y :: ys)) as [->|Hin] by (eapply Permutation_in; [exact HP|left; auto]); auto.
      assert (In y (x :: xs)) as [->|Hin'] by (eapply Permutation_in; [apply Permutation_sym, HP|left; auto]); auto. }
    subst y. f_equal. apply IH; auto. eapply Permutation_cons_inv; eauto.
Qed.
