(** spans: parts, subscripts, iteration, comparison (proofs). *)
From Coq Require Import ZArith List Bool Lia.
From Verif.Spec Require Import Seq SpanSpec.
From Verif.Model Require Import Span.
Import ListNotations.
Local Open Scope Z_scope.
From Verif.Proof Require Import SeqP.

Ltac facts := repeat match goal with
  | H : _ && _ = true |- _ => apply andb_prop in H; destruct H
  | H : _ && _ = false |- _ => apply andb_false_iff in H
  | H : _ || _ = true |- _ => apply orb_prop in H
  | H : _ || _ = false |- _ => apply orb_false_iff in H; destruct H
  | H : (_ <=? _) = true |- _ => apply Z.leb_le in H
  | H : (_ <=? _) = false |- _ => apply Z.leb_gt in H
  | H : (_ <? _) = true |- _ => apply Z.ltb_lt in H
  | H : (_ <? _) = false |- _ => apply Z.ltb_ge in H
  | H : (_ =? _) = true |- _ => apply Z.eqb_eq in H
  | H : (_ =? _) = false |- _ => apply Z.eqb_neq in H
  end.
Lemma range_le a b : 0 <= a -> a <= b -> (0 <=? a) && (a <=? b) = true.
Proof. intros. apply andb_true_intro. split; apply Z.leb_le; lia. Qed.
Lemma make_static chk e p : 0 <= e -> make chk e p e = Some {| data := p; count := e; extent := Some e |}.
Proof.
  intros H. unfold make, dynamic_extent, assert. destruct (Z.eqb_spec e (-1)); [lia|]. destruct (Z.ltb_spec e 0); [lia|]. rewrite Z.eqb_refl. cbn. now rewrite andb_false_r.
Qed.
Lemma make_dynamic chk p n : make chk dynamic_extent p n = Some {| data := p; count := n; extent := None |}.
Proof. reflexivity. Qed.
Lemma assert_true chk (b : bool) {X} (x : option X) : b = true -> assert chk b x = x.
Proof. intros ->. unfold assert. now rewrite andb_false_r. Qed.
Lemma run_ok chk s c : (extent s = None \/ extent s = Some (count s)) -> 0 <= size s -> in_range (size s) c ->
  exists s', run chk s c = Some s' /\ data s' = data s + fst (asked (size s) c) /\ size s' = snd (asked (size s) c) /\ (extent s' = None \/ extent s' = Some (count s')).
Proof.
  intros E S. assert (SC : size s = count s) by (unfold size; destruct E as [-> | ->]; reflexivity).
  destruct c as [k|k|k|k|o k|o k]; cbn [in_range asked fst snd]; unfold in_range; cbn [asked fst snd]; intros (R1 & R2 & R3); unfold run.
  - destruct (extent s) as [e|] eqn:EX.
    + assert (e = size s) by (unfold size; now rewrite EX). subst e. rewrite range_le by lia. rewrite make_static by lia. eexists. split; [reflexivity|]. cbn. repeat split; auto; lia.
    + destruct (Z.leb_spec 0 k); [|lia]. rewrite assert_true by (apply Z.leb_le; lia). rewrite make_static by lia. eexists. split; [reflexivity|]. cbn. repeat split; auto; lia.
  - destruct (extent s) as [e|] eqn:EX.
    + assert (e = size s) by (unfold size; now rewrite EX). subst e. rewrite range_le by lia. rewrite make_static by lia. eexists. split; [reflexivity|]. cbn. repeat split; auto; lia.
    + destruct (Z.leb_spec 0 k); [|lia]. rewrite assert_true by (apply Z.leb_le; lia). rewrite make_static by lia. eexists. split; [reflexivity|]. cbn. repeat split; auto; lia.
  - rewrite assert_true by (apply range_le; lia). rewrite make_dynamic. eexists. split; [reflexivity|]. cbn. repeat split; auto; lia.
  - rewrite assert_true by (apply range_le; lia). rewrite make_dynamic. eexists. split; [reflexivity|]. cbn. repeat split; auto; lia.
  - fold dynamic_extent in *. destruct (Z.eqb_spec k dynamic_extent) as [->|K].
    + destruct (extent s) as [e|] eqn:EX.
      * assert (e = size s) by (unfold size; now rewrite EX). subst e. rewrite assert_true by (apply range_le; lia). rewrite make_static by lia. eexists. split; [reflexivity|]. cbn. repeat split; auto; lia.
      * rewrite assert_true by (apply range_le; lia). cbn [orb]. rewrite assert_true by reflexivity. rewrite make_dynamic. eexists. split; [reflexivity|]. cbn. repeat split; auto; lia.
    + destruct (extent s) as [e|] eqn:EX.
      * rewrite assert_true by (apply range_le; lia). rewrite make_static by lia. eexists. split; [reflexivity|]. cbn. repeat split; auto; lia.
      * rewrite assert_true by (apply range_le; lia). cbn [orb]. rewrite assert_true by (apply Z.leb_le; lia). rewrite make_dynamic. eexists. split; [reflexivity|]. cbn. repeat split; auto; lia.
  - fold dynamic_extent in *. rewrite assert_true by (apply range_le; destruct (k =? dynamic_extent); lia). destruct (Z.eqb_spec k dynamic_extent) as [->|K].
    + rewrite assert_true by (now rewrite orb_true_r). rewrite make_dynamic. eexists. split; [reflexivity|]. cbn. repeat split; auto; lia.
    + rewrite assert_true by (rewrite range_le by lia; reflexivity). rewrite assert_true by (apply Z.leb_le; lia). rewrite make_dynamic. eexists. split; [reflexivity|]. cbn. repeat split; auto; lia.
Qed.
Lemma visit_up n a : visit n a (a + Z.of_nat n) 1 = map (fun i => a + Z.of_nat i) (seq 0 n).
Proof.
  revert a. induction n as [|n IH]; intros a; [reflexivity|]. cbn [visit]. destruct (Z.eqb_spec a (a + Z.of_nat (S n))); [lia|]. cbn [seq map]. f_equal; [lia|].
  replace (a + Z.of_nat (S n)) with (a + 1 + Z.of_nat n) by lia. rewrite IH. rewrite <- seq_shift, map_map. apply map_ext. intros i. lia.
Qed.
Lemma visit_down n a : visit n (a + Z.of_nat n) a (-1) = map (fun i => a + Z.of_nat n - Z.of_nat i) (seq 0 n).
Proof.
  induction n as [|n IH]; [reflexivity|]. cbn [visit]. destruct (Z.eqb_spec (a + Z.of_nat (S n)) a); [lia|]. cbn [seq map]. f_equal; [lia|].
  replace (a + Z.of_nat (S n) + -1) with (a + Z.of_nat n) by lia. rewrite IH. rewrite <- seq_shift, map_map. apply map_ext. intros i. lia.
Qed.
Lemma forward_eq s : 0 <= size s -> forward s = map (fun i => data s + Z.of_nat i) (seq 0 (Z.to_nat (size s))).
Proof. intros H. unfold forward. rewrite <- (Z2Nat.id (size s)) at 2 by exact H. apply visit_up. Qed.
Lemma forward_length s : 0 <= size s -> length (forward s) = Z.to_nat (size s).
Proof. intros H. rewrite forward_eq by exact H. now rewrite map_length, seq_length. Qed.
Lemma skipn_map_seq {X} (f : nat -> X) o n : skipn o (map f (seq 0 n)) = map (fun i => f (o + i)%nat) (seq 0 (n - o)).
Proof.
  revert f n. induction o as [|o IH]; intros f n; [cbn; now rewrite Nat.sub_0_r|]. destruct n as [|n]; [reflexivity|].
  cbn [seq map skipn]. rewrite <- seq_shift, map_map. rewrite (IH (fun i => f (S i)) n). cbn [Nat.sub]. apply map_ext. intros i. reflexivity.
Qed.
Lemma firstn_map_seq {X} (f : nat -> X) k n : (k <= n)%nat -> firstn k (map f (seq 0 n)) = map f (seq 0 k).
Proof.
  revert f n. induction k as [|k IH]; intros f n H; [reflexivity|]. destruct n as [|n]; [lia|]. cbn [seq map firstn]. f_equal. rewrite <- !seq_shift, !map_map. apply (IH (fun i => f (S i))). lia.
Qed.
Lemma forward_part s s' o k : 0 <= size s -> data s' = data s + o -> size s' = k -> 0 <= o -> 0 <= k -> o + k <= size s -> forward s' = part (forward s) o k.
Proof.
  intros H D K O P R. rewrite !forward_eq by lia. unfold part. rewrite skipn_map_seq. rewrite firstn_map_seq by lia. rewrite K, D. apply map_ext. intros i. lia.
Qed.

Lemma C66_parts_main :
  forall chk s cs, (extent s = None \/ extent s = Some (count s)) -> 0 <= size s -> all_in_range cs (size s) ->
    exists s', run_all chk s cs = Some s' /\ forward s' = parts cs (forward s).
Proof.
  intros chk s cs. revert s. induction cs as [|c r IH]; intros s E S R; [exists s; split; reflexivity|]. destruct R as (R & Rr).
  destruct (run_ok chk s c E S R) as (s1 & E1 & D1 & S1 & X1). cbn [run_all]. rewrite E1. destruct R as (Ra & Rb & Rc).
  destruct (IH s1 X1 ltac:(lia)) as (s2 & E2 & F2); [rewrite S1; exact Rr|]. exists s2. split; [exact E2|]. rewrite F2. cbn [parts].
  rewrite forward_length by exact S. rewrite Z2Nat.id by exact S. f_equal. now apply forward_part.
Qed.

Lemma C66_checked_partial_main :
  forall s c s', (forall o k, c = SubspanT o k -> k = -1) -> (extent s = None \/ extent s = Some (count s)) -> 0 <= size s ->
    run true s c = Some s' -> in_range (size s) c.
Proof.
  intros s c s' NC E S H. assert (SC : size s = count s) by (unfold size; destruct E as [-> | ->]; reflexivity).
  unfold in_range. destruct c as [k|k|k|k|o k|o k]; unfold run in H; cbn [asked fst snd].
  - destruct (extent s) as [e|] eqn:EX.
    + assert (e = size s) by (unfold size; now rewrite EX). subst e. destruct ((0 <=? k) && (k <=? size s)) eqn:C; [facts; lia|discriminate H].
    + destruct (0 <=? k) eqn:C1; [|discriminate H]. unfold assert in H. destruct (k <=? size s) eqn:C; [facts; lia|discriminate H].
  - destruct (extent s) as [e|] eqn:EX.
    + assert (e = size s) by (unfold size; now rewrite EX). subst e. destruct ((0 <=? k) && (k <=? size s)) eqn:C; [facts; lia|discriminate H].
    + destruct (0 <=? k) eqn:C1; [|discriminate H]. unfold assert in H. destruct (k <=? size s) eqn:C; [facts; lia|discriminate H].
  - unfold assert in H. destruct ((0 <=? k) && (k <=? size s)) eqn:C; [facts; lia|discriminate H].
  - unfold assert in H. destruct ((0 <=? k) && (k <=? size s)) eqn:C; [facts; lia|discriminate H].
  - specialize (NC o k eq_refl). subst k. cbn [Z.eqb Pos.eqb]. unfold assert in H. destruct ((0 <=? o) && (o <=? size s)) eqn:C; [facts; lia|]. destruct (extent s); discriminate H.
  - fold dynamic_extent. unfold assert in H. destruct ((0 <=? o) && (o <=? size s)) eqn:C; [|discriminate H]. cbn [andb negb] in H.
    destruct ((0 <=? k) && (k <=? size s) || (k =? dynamic_extent)) eqn:C2; [|discriminate H]. cbn [andb negb] in H. destruct (k =? dynamic_extent) eqn:C3; [facts; lia|].
    destruct (o + k <=? size s) eqn:C4; [|discriminate H]. rewrite orb_false_r in C2. facts. lia.
Qed.

Lemma C66_static_subspan_refuted_main :
  let s := {| data := 100; count := 10; extent := Some 10 |} in
  run true s (SubspanT 8 5) = Some {| data := 108; count := 5; extent := Some 5 |} /\ ~ in_range (size s) (SubspanT 8 5).
Proof.
  cbv zeta. split; [reflexivity|]. unfold in_range. cbn. lia.
Qed.

Lemma C66_negative_subspan_refuted_main :
  let s := {| data := 100; count := 10; extent := None |} in
  run true s (SubspanT 2 (-5)) = Some {| data := 102; count := -5; extent := None |} /\ ~ in_range (size s) (SubspanT 2 (-5)).
Proof.
  cbv zeta. split; [reflexivity|]. unfold in_range. cbn. lia.
Qed.

Lemma C66_access_main :
  forall s t, (extent s = None \/ extent s = Some (count s)) -> (extent t = None \/ extent t = Some (count t)) -> extent s = extent t -> 0 <= size s ->
    (Z.of_nat (length (forward s)) = size s /\ backward s = rev (forward s)) /\
    (forall chk i, 0 <= i < size s -> exists a, subscript chk s i = Some a /\ nth_error (forward s) (Z.to_nat i) = Some a) /\
    (forall i, ~ 0 <= i < size s -> subscript true s i = None) /\
    forward (fst (swap s t)) = forward t /\ forward (snd (swap s t)) = forward s.
Proof.
  intros s t E Et EE S. split; [split|split; [|split; [|split]]].
  - rewrite forward_length by exact S. lia.
  - unfold backward. rewrite <- (Z2Nat.id (size s)) at 2 by exact S. rewrite visit_down, map_map. rewrite forward_eq by exact S. rewrite <- map_rev. generalize (Z.to_nat (size s)). intros n. clear.
    induction n as [|n IH]; [reflexivity|]. rewrite seq_S at 2. rewrite rev_app_distr. cbn [rev app map seq Nat.add]. f_equal; [lia|].
    rewrite <- IH. rewrite <- seq_shift, map_map. apply map_ext. intros i. lia.
  - intros chk i I. unfold subscript. rewrite assert_true by (apply andb_true_intro; split; [apply Z.leb_le|apply Z.ltb_lt]; lia). eexists. split; [reflexivity|].
    rewrite forward_eq by exact S. rewrite nth_error_map. rewrite (nth_error_nth' _ 0%nat) by (rewrite seq_length; lia). rewrite seq_nth by lia. cbn. f_equal. lia.
  - intros i I. unfold subscript, assert. destruct ((0 <=? i) && (i <? size s)) eqn:C; [facts; lia|reflexivity].
  - unfold forward, size, swap. cbn. now rewrite EE.
  - unfold forward, size, swap. cbn. now rewrite EE.
Qed.

Lemma C66_compare_main :
  forall (X : Type) (lt eq : X -> X -> bool), (forall x y, eq x y = true <-> x = y) -> (forall x, lt x x = false) ->
    (forall x y z, lt x y = true -> lt y z = true -> lt x z = true) -> (forall x y, lt x y = true \/ x = y \/ lt y x = true) ->
    forall a b : list X,
      (span_eq eq a b = true <-> a = b) /\ (span_lt lt a b = true <-> before lt eq a b) /\
      (span_ne eq a b = true <-> a <> b) /\ (span_gt lt a b = true <-> before lt eq b a) /\
      (span_le lt a b = true <-> before lt eq a b \/ a = b) /\ (span_ge lt a b = true <-> before lt eq b a \/ a = b) /\
      ((before lt eq a b /\ a <> b /\ ~ before lt eq b a) \/ (~ before lt eq a b /\ a = b /\ ~ before lt eq b a) \/ (~ before lt eq a b /\ a <> b /\ before lt eq b a)).
Proof.
  intros X lt eq EQ IR TR TO a b.
  assert (QE : forall a b : list X, equal eq a b = true <-> a = b).
  { clear a b. induction a as [|x a0 IH]; intros [|y b0]; cbn [equal].
    - split; reflexivity.
    - split; discriminate.
    - split; discriminate.
    - split; intros H.
      + apply andb_prop in H. destruct H as (H1 & H2). apply EQ in H1. apply IH in H2. congruence.
      + injection H as <- <-. apply andb_true_intro. split; [now apply EQ|now apply IH]. }
  assert (QL : forall a b : list X, lexicographical lt a b = true <-> before lt eq a b).
  { clear a b QE. induction a as [|x a0 IH]; intros [|y b0]; cbn [lexicographical].
    - split; [discriminate|intros H; inversion H].
    - split; [constructor|reflexivity].
    - split; [discriminate|intros H; inversion H].
    - split; intros H.
      + destruct (lt x y) eqn:L; [now apply before_here|]. destruct (lt y x) eqn:L2; [discriminate H|]. apply before_later; [|now apply IH]. apply EQ. destruct (TO x y) as [T|[T|T]]; congruence.
      + inversion H; subst.
        * match goal with K : lt x y = true |- _ => now rewrite K end.
        * match goal with K : eq x y = true |- _ => apply EQ in K; subst y end. rewrite IR. now apply IH. }
  assert (EX : forall a b : list X, (before lt eq a b /\ a <> b /\ ~ before lt eq b a) \/ (~ before lt eq a b /\ a = b /\ ~ before lt eq b a) \/ (~ before lt eq a b /\ a <> b /\ before lt eq b a)).
  { clear a b QE QL. induction a as [|x a0 IH]; intros [|y b0].
    - right; left. repeat split; intros H; inversion H.
    - left. repeat split; [constructor|congruence|intros H; inversion H].
    - right; right. repeat split; [intros H; inversion H|congruence|constructor].
    - assert (A : forall u v, lt u v = true -> ~ before lt eq (v :: a0) (u :: b0) /\ ~ before lt eq (v :: b0) (u :: a0)).
      { intros u v L. split; intros H; inversion H; subst.
        - match goal with K : lt v u = true |- _ => pose proof (TR _ _ _ L K); rewrite IR in *; discriminate end.
        - match goal with K : eq v u = true |- _ => apply EQ in K; subst; rewrite IR in L; discriminate end.
        - match goal with K : lt v u = true |- _ => pose proof (TR _ _ _ L K); rewrite IR in *; discriminate end.
        - match goal with K : eq v u = true |- _ => apply EQ in K; subst; rewrite IR in L; discriminate end. }
      destruct (TO x y) as [L|[<-|L]].
      + left. split; [now apply before_here|]. split; [intros H; injection H as -> _; rewrite IR in L; discriminate|apply A; exact L].
      + assert (B : forall u v, before lt eq (x :: u) (x :: v) <-> before lt eq u v).
        { intros u v. split; intros H; [inversion H; subst; [rewrite IR in *; discriminate|assumption]|apply before_later; [now apply EQ|exact H]]. }
        rewrite !B. destruct (IH b0) as [(I1 & I2 & I3)|[(I1 & I2 & I3)|(I1 & I2 & I3)]]; [left|right; left|right; right]; repeat split; auto; congruence.
      + right; right. split; [apply A; exact L|]. split; [intros H; injection H as -> _; rewrite IR in L; discriminate|now apply before_here]. }
  unfold span_eq, span_lt, span_ne, span_gt, span_le, span_ge. rewrite !negb_true_iff. rewrite <- !not_true_iff_false. rewrite !QL, !QE.
  repeat split; try tauto; try (intros H; apply H; fail); destruct (EX a b) as [(I1 & I2 & I3)|[(I1 & I2 & I3)|(I1 & I2 & I3)]]; try tauto; try (intros; subst; tauto); intuition congruence.
Qed.
