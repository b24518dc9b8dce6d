(** Proofs about elementwise operations, load/store, reductions, masks and write masking. *)
From Coq Require Import ZArith List Bool Lia Permutation.
From Verif.Spec Require Import Seq NativeSpec MaskSpec OperandSpec.
From Verif.Model Require Import SplitSize SimdArray Mem SimdArrayOps.
From Verif.Proof Require Import SeqP SplitSizeP SimdArrayP SimdArrayMoveP SimdArrayOrdP.
Import ListNotations.
Local Open Scope Z_scope.

(** * fromOperation *)

Lemma pow2_pos k : (1 <= Nat.pow 2 k)%nat.
Proof. pose proof (Nat.pow_nonzero 2 k). lia. Qed.

Lemma pow2_of_mul_gen a : forall b n, (Nat.pow 2 a = Nat.pow 2 b * n -> exists c, n = Nat.pow 2 c)%nat.
Proof.
  intros b; revert a; induction b as [|b IH]; intros a n H.
  - exists a. cbn in H. lia.
  - destruct a as [|a].
    + cbn in H. pose proof (pow2_pos b). destruct n; [lia|]. nia.
    + apply (IH a). cbn in H. nia.
Qed.

Section FromOp.
  Context {A B : Type} (native : nat -> bool) (zero : A) (f : list A -> B).
  Hypothesis Hw : widths_ok native.

  Lemma div_mul_r p n : (p <> 0 -> (p * n) / p = n)%nat.
  Proof. intros. rewrite Nat.mul_comm. now apply Nat.div_mul. Qed.

  Lemma split_ok n o : native n = false -> (2 <= n)%nat -> operand_ok n o ->
    operand_ok (left_size n) (@split_lo A o) /\ operand_ok (right_size n) (split_hi o).
  Proof.
    intros NN H2 Ho. destruct (right_left n H2) as [R1 R2].
    destruct o as [t|xs p j|a]; [|destruct Ho as ((a & b & E1 & E2 & E3) & Hj)|split; exact I].
    - destruct Ho as (nat' & W' & Wt). destruct Wt as [n xs N L|n l r N Wl Wr].
      + cbn. destruct (proj2 W' _ N) as [k Hk]. destruct k as [|k]; [cbn in Hk; lia|].
        assert (Q : left_size n = Nat.pow 2 k) by (rewrite Hk; apply left_size_pow2).
        unfold right_size. rewrite Q.
        assert (n - Nat.pow 2 k = Nat.pow 2 k)%nat as -> by (rewrite Hk; cbn; lia).
        split; (split; [exists (S k), 1%nat; rewrite L, Hk; cbn; lia|lia]).
      + cbn. split; exists nat'; auto.
    - destruct (pow2_of_mul_gen a b n) as [c Hc]; [congruence|].
      destruct c as [|c]; [cbn in Hc; lia|].
      assert (Q : left_size n = Nat.pow 2 c) by (rewrite Hc; apply left_size_pow2).
      unfold right_size. rewrite Q.
      assert (n - Nat.pow 2 c = Nat.pow 2 c)%nat as -> by (rewrite Hc; cbn; lia).
      cbn [split_lo split_hi operand_ok].
      assert (length xs = p * 2 * Nat.pow 2 c)%nat by (rewrite E3, Hc; cbn; lia).
      split; (split; [exists a, (S b); split; [auto|split; [cbn; lia|auto]]|lia]).
  Qed.

  Lemma split_at n o i : native n = false -> (2 <= n)%nat -> operand_ok n o ->
    (0 <= i < Z.of_nat (left_size n) -> operand_at zero (split_lo o) i = operand_at zero o i) /\
    (0 <= i < Z.of_nat (right_size n) -> operand_at zero (split_hi o) i = operand_at zero o (i + Z.of_nat (left_size n))).
  Proof.
    intros NN H2 Ho. destruct (right_left n H2) as [R1 R2].
    destruct o as [t|xs p j|a]; [|destruct Ho as ((a & b & E1 & E2 & E3) & Hj)|split; reflexivity].
    - destruct Ho as (nat' & W' & Wt). destruct Wt as [n xs N L|n l r N Wl Wr].
      + destruct (proj2 W' _ N) as [k Hk]. destruct k as [|k]; [cbn in Hk; lia|].
        assert (Q : left_size n = Nat.pow 2 k) by (rewrite Hk; apply left_size_pow2).
        assert (D : (length xs / 2 = Nat.pow 2 k)%nat).
        { rewrite L, Hk. cbn [Nat.pow]. apply div_mul_r. lia. }
        cbn [split_lo split_hi operand_at to_list]. rewrite D, Q. split; intros Hi; f_equal; lia.
      + cbn [split_lo split_hi operand_at]. split; intros Hi.
        * rewrite (X_node nat' zero W' _ _ _ _ _ Wl Wr). zcases. reflexivity.
        * rewrite (X_node nat' zero W' _ _ _ _ _ Wl Wr). zcases. f_equal. lia.
    - destruct (pow2_of_mul_gen a b n) as [c Hc]; [congruence|].
      destruct c as [|c]; [cbn in Hc; lia|].
      assert (Q : left_size n = Nat.pow 2 c) by (rewrite Hc; apply left_size_pow2).
      assert (0 < p)%nat by lia.
      assert (D1 : (length xs / p = n)%nat) by (rewrite E3; apply div_mul_r; lia).
      assert (D2 : (length xs / (p * 2) = Nat.pow 2 c)%nat).
      { replace (length xs) with (p * 2 * Nat.pow 2 c)%nat by (rewrite E3, Hc; cbn; lia). apply div_mul_r. lia. }
      cbn [split_lo split_hi operand_at]. rewrite D1, D2, Q.
      assert (n = 2 * Nat.pow 2 c)%nat by (rewrite Hc; cbn; lia).
      split; intros Hi; f_equal; rewrite H0; nia.
  Qed.

  Lemma elems_at n o i : (1 <= n)%nat -> operand_ok n o -> 0 <= i < Z.of_nat n ->
    znth zero (operand_elems n o) i = operand_at zero o i.
  Proof.
    intros Hn Ho Hi. destruct o as [t|xs p j|a]; cbn [operand_elems operand_at].
    - reflexivity.
    - destruct Ho as ((a & b & E1 & E2 & E3) & Hj).
      assert (D1 : (length xs / p = n)%nat) by (rewrite E3; apply div_mul_r; lia).
      assert (D2 : (j * length xs / p = j * n)%nat).
      { rewrite E3. replace (j * (p * n))%nat with (p * (j * n))%nat by lia. apply div_mul_r. lia. }
      rewrite D1, D2. rewrite znth_firstn by lia. rewrite znth_skipn by lia. reflexivity.
    - now apply znth_repeat.
  Qed.

  Lemma from_op_ok : forall fuel n args, (1 <= n <= fuel)%nat -> Forall (operand_ok n) args ->
    wf native n (from_op native zero f fuel n args) /\
    to_list (from_op native zero f fuel n args) = tab n (fun i => f (map (fun o => operand_at zero o i) args)).
  Proof.
    induction fuel as [|fuel IH]; intros n args Hn Ha; [lia|].
    cbn [from_op]. destruct (native n) eqn:E.
    - split; [constructor; auto; apply tab_length|]. cbn [to_list]. apply tab_ext. intros i Hi.
      f_equal. apply map_ext_in. intros o Ho. apply elems_at; auto; [lia|].
      rewrite Forall_forall in Ha. auto.
    - pose proof (not_native_ge2 native Hw n ltac:(lia) E) as H2.
      destruct (right_left n H2) as [R1 R2].
      destruct (IH (left_size n) (map split_lo args)) as [W0 L0]; [lia| |].
      { rewrite Forall_forall in *. intros o Ho. apply in_map_iff in Ho. destruct Ho as (o' & <- & Ho').
        apply split_ok; auto. }
      destruct (IH (right_size n) (map split_hi args)) as [W1 L1]; [lia| |].
      { rewrite Forall_forall in *. intros o Ho. apply in_map_iff in Ho. destruct Ho as (o' & <- & Ho').
        apply split_ok; auto. }
      split; [now constructor|]. cbn [to_list]. rewrite L0, L1.
      transitivity (tab (left_size n + right_size n) (fun i => f (map (fun o => operand_at zero o i) args))); [|now rewrite R1].
      rewrite tab_app. rewrite Forall_forall in Ha. f_equal.
      + apply tab_ext. intros i Hi. rewrite map_map. f_equal. apply map_ext_in. intros o Ho.
        apply (split_at n); auto.
      + apply tab_ext. intros i Hi. rewrite map_map. f_equal. apply map_ext_in. intros o Ho.
        rewrite (proj2 (split_at n o i E H2 (Ha o Ho))) by auto. f_equal. lia.
  Qed.

  Lemma map_sa_ok (g : A -> B) n t : wf native n t -> wf native n (map_sa g t) /\ to_list (map_sa g t) = map g (to_list t).
  Proof.
    induction 1 as [n xs N L|n l r N Wl [IHl El] Wr [IHr Er]]; cbn [map_sa to_list].
    - split; [constructor; rewrite ?map_length; auto|reflexivity].
    - split; [now constructor|]. now rewrite El, Er, map_app.
  Qed.
End FromOp.

(** * Same-type operations *)
Section Zip.
  Context {A B C : Type} (native : nat -> bool).
  Hypothesis Hw : widths_ok native.

  Lemma zip_sa_ok (f : A -> B -> C) : forall n a b, wf native n a -> wf native n b ->
    exists r, zip_sa f a b = Some r /\ wf native n r /\ to_list r = map2 f (to_list a) (to_list b).
  Proof.
    intros n a b W; revert b; induction W as [n xs N L|n l r N Wl IHl Wr IHr]; intros b Wb.
    - inversion Wb as [n' ys N' L'|]; subst b; [|congruence]. cbn.
      eexists. split; [reflexivity|]. split; [|reflexivity]. constructor; auto. rewrite map2_length. lia.
    - inversion Wb as [|n' l' r' N' Wl' Wr']; subst b; [congruence|]. cbn [zip_sa].
      destruct (IHl _ Wl') as (t0 & -> & W0 & L0). destruct (IHr _ Wr') as (t1 & -> & W1 & L1). cbn [obind].
      eexists. split; [reflexivity|]. split; [now constructor|]. cbn [to_list].
      rewrite L0, L1. rewrite map2_app; auto. now rewrite (wf_len native Hw _ _ Wl), (wf_len native Hw _ _ Wl').
  Qed.
End Zip.

(** * Memory *)
Lemma tab_1 A (g : Z -> A) : tab 1 g = [g 0].
Proof. reflexivity. Qed.

Lemma mem_load_spec A (m : memory A) n : forall base d,
  (forall i, 0 <= i < Z.of_nat n -> exists v, m (base + i) = Some v) ->
  mem_load m base n = Some (tab n (fun i => match m (base + i) with Some v => v | None => d end)).
Proof.
  induction n as [|n IH]; intros base d H; [reflexivity|].
  cbn [mem_load]. destruct (H 0 ltac:(lia)) as [v Hv]. rewrite Z.add_0_r in Hv. rewrite Hv.
  rewrite (IH (base + 1) d) by (intros i Hi; destruct (H (i + 1) ltac:(lia)) as [w Hw]; exists w; rewrite <- Hw; f_equal; lia).
  cbn [option_map]. f_equal.
  change (S n) with (1 + n)%nat. rewrite tab_app, tab_1. rewrite Z.add_0_r, Hv. cbn [app]. f_equal. apply tab_ext. intros z Hz.
  replace (base + 1 + z) with (base + (Z.of_nat 1 + z)) by lia. reflexivity.
Qed.

Lemma mem_load_none A (m : memory A) n : forall base i, 0 <= i < Z.of_nat n -> m (base + i) = None -> mem_load m base n = None.
Proof.
  induction n as [|n IH]; intros base i Hi Hn; [lia|]. cbn [mem_load].
  destruct (Z.eq_dec i 0) as [->|].
  - rewrite Z.add_0_r in Hn. now rewrite Hn.
  - destruct (m base); auto. rewrite (IH (base + 1) (i - 1)); auto; [lia|]. rewrite <- Hn. f_equal. lia.
Qed.

Lemma mem_store_spec A : forall xs (m : memory A) base d,
  (forall i, 0 <= i < Z.of_nat (length xs) -> exists v, m (base + i) = Some v) ->
  exists m', mem_store m base xs = Some m' /\
    forall a, m' a = if (base <=? a) && (a <? base + Z.of_nat (length xs)) then Some (znth d xs (a - base)) else m a.
Proof.
  induction xs as [|x xs IH]; intros m base d H.
  - exists m. split; [reflexivity|]. intros a. cbn [length].
    destruct (Z.leb_spec base a), (Z.ltb_spec a (base + Z.of_nat 0)); cbn; auto; lia.
  - cbn [mem_store length]. unfold mem_write. destruct (H 0 ltac:(cbn; lia)) as [v Hv]. rewrite Z.add_0_r in Hv. rewrite Hv.
    destruct (IH (mem_set m base x) (base + 1) d) as (m' & E & Hm').
    { intros i Hi. unfold mem_set. destruct (Z.eqb_spec (base + 1 + i) base); [eauto|].
      destruct (H (i + 1) ltac:(cbn [length]; lia)) as [w Hw]. exists w. rewrite <- Hw. f_equal. lia. }
    exists m'. split; auto. intros a. rewrite Hm'. unfold mem_set.
    change (x :: xs) with ([x] ++ xs). rewrite znth_app. cbn [length].
    destruct (Z.leb_spec (base + 1) a), (Z.ltb_spec a (base + 1 + Z.of_nat (length xs))),
      (Z.leb_spec base a), (Z.ltb_spec a (base + Z.of_nat (S (length xs)))); cbn [andb]; try lia.
    + destruct (Z.ltb_spec (a - base) (Z.of_nat 1)); [lia|]. f_equal. f_equal. lia.
    + destruct (Z.eqb_spec a base); [lia|reflexivity].
    + destruct (Z.eqb_spec a base); [|lia]. subst. rewrite Z.sub_diag. reflexivity.
    + destruct (Z.eqb_spec a base); [lia|reflexivity].
Qed.

Lemma mem_store_none A : forall xs (m : memory A) base i,
  0 <= i < Z.of_nat (length xs) -> m (base + i) = None -> mem_store m base xs = None.
Proof.
  induction xs as [|x xs IH]; intros m base i Hi Hn; cbn [length] in Hi; [lia|]. cbn [mem_store].
  unfold mem_write. destruct (Z.eq_dec i 0) as [->|].
  - rewrite Z.add_0_r in Hn. now rewrite Hn.
  - destruct (m base); auto. apply (IH _ _ (i - 1)); [lia|]. unfold mem_set.
    destruct (Z.eqb_spec (base + 1 + (i - 1)) base); [lia|]. rewrite <- Hn. f_equal. lia.
Qed.

Section LoadStore.
  Context {A : Type} (native : nat -> bool) (zero : A).
  Hypothesis Hw : widths_ok native.

  Lemma load_f_ok : forall fuel n m base, (1 <= n <= fuel)%nat ->
    (forall i, 0 <= i < Z.of_nat n -> exists v, m (base + i) = Some v) ->
    exists t, load_f native fuel m base n = Some t /\ wf native n t /\
      to_list t = tab n (fun i => match m (base + i) with Some v => v | None => zero end).
  Proof.
    induction fuel as [|fuel IH]; intros n m base Hn H; [lia|]. cbn [load_f].
    destruct (native n) eqn:E.
    - rewrite (mem_load_spec _ m n base zero H). eexists. split; [reflexivity|]. split; [|reflexivity].
      constructor; auto. apply tab_length.
    - pose proof (not_native_ge2 native Hw n ltac:(lia) E) as H2.
      destruct (right_left n H2) as [R1 R2].
      destruct (IH (left_size n) m base ltac:(lia)) as (t0 & -> & W0 & L0); [intros; apply H; lia|].
      destruct (IH (right_size n) m (base + Z.of_nat (left_size n)) ltac:(lia)) as (t1 & -> & W1 & L1).
      { intros i Hi. destruct (H (i + Z.of_nat (left_size n)) ltac:(lia)) as [v Hv]. exists v. rewrite <- Hv. f_equal; lia. }
      cbn [obind]. eexists. split; [reflexivity|]. split; [now constructor|]. cbn [to_list]. rewrite L0, L1.
      transitivity (tab (left_size n + right_size n) (fun i => match m (base + i) with Some v => v | None => zero end)); [|now rewrite R1].
      rewrite tab_app. f_equal. apply tab_ext. intros i Hi. now rewrite Z.add_assoc.
  Qed.

  Lemma load_f_none : forall fuel n m base i, (1 <= n)%nat ->
    0 <= i < Z.of_nat n -> m (base + i) = None -> @load_f A native fuel m base n = None.
  Proof.
    induction fuel as [|fuel IH]; intros n m base i Hn Hi H; auto. cbn [load_f].
    destruct (native n) eqn:E.
    - now rewrite (mem_load_none _ m n base i Hi H).
    - pose proof (not_native_ge2 native Hw n ltac:(lia) E) as H2.
      destruct (right_left n H2) as [R1 R2].
      destruct (Z.ltb_spec i (Z.of_nat (left_size n))).
      + rewrite (IH (left_size n) m base i) by (auto; lia). reflexivity.
      + rewrite (IH (right_size n) m _ (i - Z.of_nat (left_size n))); [|lia|lia|rewrite <- H; f_equal; lia].
        destruct (load_f native fuel m base (left_size n)); reflexivity.
  Qed.

  Lemma store_ok : forall n t m base, wf native n t ->
    (forall i, 0 <= i < Z.of_nat n -> exists v, m (base + i) = Some v) ->
    exists m', store t m base = Some m' /\
      forall a, m' a = if (base <=? a) && (a <? base + Z.of_nat n) then Some (znth zero (to_list t) (a - base)) else m a.
  Proof.
    intros n t m base W; revert m base. induction W as [n xs N L|n l r N Wl IHl Wr IHr]; intros m base H.
    - subst n. apply mem_store_spec; auto.
    - pose proof (wf_size native Hw _ _ (wf_node _ _ _ _ N Wl Wr)) as (S1 & S2 & S3).
      pose proof (not_native_ge2 native Hw n S3 N) as H2. destruct (right_left n H2) as [R1 R2].
      cbn [store]. destruct (IHl m base) as (m1 & -> & E1); [intros; apply H; lia|]. cbn [obind].
      rewrite (wf_isz native Hw _ _ Wl).
      destruct (IHr m1 (base + Z.of_nat (left_size n))) as (m2 & -> & E2).
      { intros i Hi. rewrite E1. destruct (Z.leb_spec base (base + Z.of_nat (left_size n) + i)), (Z.ltb_spec (base + Z.of_nat (left_size n) + i) (base + Z.of_nat (left_size n))); cbn [andb]; try lia.
        rewrite <- Z.add_assoc. apply H. lia. }
      eexists. split; [reflexivity|]. intros a. rewrite E2, E1.
      rewrite (X_node native zero Hw _ _ _ _ _ Wl Wr).
      destruct (Z.leb_spec (base + Z.of_nat (left_size n)) a), (Z.ltb_spec a (base + Z.of_nat (left_size n) + Z.of_nat (right_size n))),
        (Z.leb_spec base a), (Z.ltb_spec a (base + Z.of_nat n)), (Z.ltb_spec a (base + Z.of_nat (left_size n)));
        cbn [andb]; try lia; auto; zcases; f_equal; f_equal; lia.
  Qed.

  Lemma store_none : forall n t (m : memory A) base i, wf native n t ->
    0 <= i < Z.of_nat n -> m (base + i) = None -> store t m base = None.
  Proof.
    intros n t m base i W; revert m base i. induction W as [n xs N L|n l r N Wl IHl Wr IHr]; intros m base i Hi H.
    - subst n. cbn [store]. eapply mem_store_none; eauto.
    - pose proof (wf_size native Hw _ _ (wf_node _ _ _ _ N Wl Wr)) as (S1 & S2 & S3).
      pose proof (not_native_ge2 native Hw n S3 N) as H2. destruct (right_left n H2) as [R1 R2].
      cbn [store]. destruct (Z.ltb_spec i (Z.of_nat (left_size n))).
      + now rewrite (IHl m base i).
      + destruct (store l m base) as [m1|] eqn:E1; [|reflexivity]. cbn [obind].
        rewrite (wf_isz native Hw _ _ Wl).
        apply (IHr m1 _ (i - Z.of_nat (left_size n))); [lia|].
        destruct (m1 (base + Z.of_nat (left_size n) + (i - Z.of_nat (left_size n)))) eqn:Q; auto. exfalso.
        assert (AL : forall j, 0 <= j < Z.of_nat (left_size n) -> exists v, m (base + j) = Some v).
        { intros j Hj. destruct (m (base + j)) eqn:QQ; eauto. rewrite (IHl m base j Hj QQ) in E1. discriminate. }
        destruct (store_ok _ l m base Wl AL) as (m' & E' & P). rewrite E1 in E'. injection E' as ->.
        rewrite P in Q.
        destruct (Z.leb_spec base (base + Z.of_nat (left_size n) + (i - Z.of_nat (left_size n)))),
           (Z.ltb_spec (base + Z.of_nat (left_size n) + (i - Z.of_nat (left_size n))) (base + Z.of_nat (left_size n))); cbn [andb] in Q; try lia.
        replace (base + Z.of_nat (left_size n) + (i - Z.of_nat (left_size n))) with (base + i) in Q by lia. congruence.
  Qed.

  Lemma list_set_nth : forall (xs : list A) i v z, 0 <= i < Z.of_nat (length xs) -> 
    znth zero (list_set xs (Z.to_nat i) v) z = if z =? i then v else znth zero xs z.
  Proof.
    induction xs as [|x xs IH]; intros i v z Hi; cbn [length] in Hi; [lia|].
    destruct (Z.to_nat i) as [|k] eqn:E; cbn [list_set].
    - assert (i = 0) as -> by lia. change (v :: xs) with ([v] ++ xs). change (x :: xs) with ([x] ++ xs).
      rewrite !znth_app. cbn [length]. destruct (Z.eqb_spec z 0) as [->|]; [reflexivity|].
      destruct (Z.ltb_spec z (Z.of_nat 1)); auto. rewrite !znth_out by (cbn; lia). reflexivity.
    - change (x :: list_set xs k v) with ([x] ++ list_set xs k v). change (x :: xs) with ([x] ++ xs).
      rewrite !znth_app. cbn [length]. change (Z.of_nat 1) with 1.
      replace k with (Z.to_nat (i - 1)) by lia. rewrite (IH (i - 1)) by lia.
      zcases; auto.
  Qed.
  Lemma list_set_length : forall (xs : list A) i v, length (list_set xs i v) = length xs.
  Proof. induction xs; intros [|i] v; cbn; auto. Qed.

  Lemma set_ok n t i v : wf native n t -> 0 <= i < Z.of_nat n ->
    wf native n (set t i v) /\ forall z, znth zero (to_list (set t i v)) z = if z =? i then v else znth zero (to_list t) z.
  Proof.
    intros W; revert i. induction W as [n xs N L|n l r N Wl IHl Wr IHr]; intros i Hi.
    - subst n. cbn [set to_list]. split; [constructor; auto; apply list_set_length|]. intros z. now apply list_set_nth.
    - pose proof (wf_size native Hw _ _ (wf_node _ _ _ _ N Wl Wr)) as (S1 & S2 & S3).
      pose proof (not_native_ge2 native Hw n S3 N) as H2. destruct (right_left n H2) as [R1 R2].
      cbn [set]. rewrite (wf_isz native Hw _ _ Wl).
      destruct (Z.ltb_spec i (Z.of_nat (left_size n))).
      + destruct (IHl i ltac:(lia)) as [W0 E0]. split; [now constructor|]. intros z.
        rewrite (X_node native zero Hw _ _ _ _ _ Wl Wr), (X_node native zero Hw _ _ _ _ _ W0 Wr), E0. zcases; reflexivity.
      + destruct (IHr (i - Z.of_nat (left_size n)) ltac:(lia)) as [W0 E0]. split; [now constructor|]. intros z.
        rewrite (X_node native zero Hw _ _ _ _ _ Wl Wr), (X_node native zero Hw _ _ _ _ _ Wl W0), E0. zcases; reflexivity.
  Qed.
End LoadStore.

(** * Reductions *)
Section Red.
  Context {A : Type} (f : A -> A -> A).
  Hypothesis Fa : forall x y z, f (f x y) z = f x (f y z).

  Lemma fold_assoc xs : forall a b, fold_left f xs (f a b) = f a (fold_left f xs b).
  Proof. induction xs as [|x xs IH]; intros a b; cbn [fold_left]; auto. now rewrite Fa, IH. Qed.

  Lemma reduce_app xs ys a b : reduce_spec f xs = Some a -> reduce_spec f ys = Some b ->
    reduce_spec f (xs ++ ys) = Some (f a b).
  Proof.
    destruct xs as [|x xs], ys as [|y ys]; cbn; try discriminate. intros [= <-] [= <-].
    rewrite fold_left_app. cbn [fold_left]. now rewrite fold_assoc.
  Qed.

  Hypothesis Fc : forall x y, f x y = f y x.

  Lemma fold_map2 : forall xs ys x y, length xs = length ys ->
    fold_left f (map2 f xs ys) (f x y) = f (fold_left f xs x) (fold_left f ys y).
  Proof.
    induction xs as [|a xs IH]; intros [|b ys] x y HL; cbn [length] in HL; try lia; cbn [map2 fold_left]; auto.
    rewrite <- IH by lia. f_equal. rewrite !Fa. f_equal. rewrite <- !Fa. f_equal. apply Fc.
  Qed.

  Lemma reduce_map2 xs ys a b : length xs = length ys ->
    reduce_spec f xs = Some a -> reduce_spec f ys = Some b -> reduce_spec f (map2 f xs ys) = Some (f a b).
  Proof.
    destruct xs as [|x xs], ys as [|y ys]; cbn; try discriminate. intros HL [= <-] [= <-].
    f_equal. apply fold_map2. lia.
  Qed.

  Context (native : nat -> bool) (red : list A -> A).
  Hypothesis Hw : widths_ok native.
  Hypothesis Hred : native_reduce_ok native f red.

  Lemma reduce_some (xs : list A) : xs <> [] -> exists v, reduce_spec f xs = Some v.
  Proof. destruct xs; [congruence|]. cbn. eauto. Qed.

  Lemma reduce_f_ok : forall fuel n t, wf native n t -> (n <= fuel)%nat ->
    exists v, reduce_f red f fuel t = Some v /\ reduce_spec f (to_list t) = Some v.
  Proof.
    induction fuel as [|fuel IH]; intros n t W HF; pose proof (wf_size native Hw _ _ W) as (S1 & S2 & S3); [lia|].
    destruct t as [xs|d0 d1]; cbn [reduce_f].
    - inversion W as [n' xs' N L|]; subst n' xs' n. eexists. split; [reflexivity|]. now apply Hred.
    - inversion W as [|n' l r E W0 W1]; subst n' l r.
      pose proof (not_native_ge2 native Hw n S3 E) as H2. destruct (right_left n H2) as [R1 R2].
      pose proof (wf_len native Hw _ _ W0) as L0. pose proof (wf_len native Hw _ _ W1) as L1.
      rewrite (wf_sz native Hw _ _ W0), (wf_sz native Hw _ _ W1).
      destruct (Nat.eqb_spec (left_size n) (right_size n)) as [EH|EH].
      + rewrite <- EH in W1. destruct (zip_with_yields native Hw f _ d0 d1 W0 W1) as (z & -> & Wz & Lz).
        cbn [obind]. destruct (IH _ z Wz ltac:(lia)) as (v & Ev & Rv). exists v. split; auto.
        destruct (reduce_some (to_list d0)) as (a & Ea); [intros Q; rewrite Q in L0; cbn in L0; lia|].
        destruct (reduce_some (to_list d1)) as (b & Eb); [intros Q; rewrite Q in L1; cbn in L1; lia|].
        cbn [to_list]. rewrite (reduce_app _ _ a b) by auto.
        rewrite <- Rv, Lz. symmetry. apply reduce_map2; auto. congruence.
      + destruct (IH _ d0 W0 ltac:(lia)) as (a & -> & Ra). destruct (IH _ d1 W1 ltac:(lia)) as (b & -> & Rb).
        cbn [obind]. eexists. split; [reflexivity|]. cbn [to_list]. now apply reduce_app.
  Qed.
End Red.

(** * Masks *)
Lemma none_app a b : none_spec (a ++ b) <-> none_spec a /\ none_spec b.
Proof.
  unfold none_spec. split.
  - intros H. split; intros x Hx; apply H; apply in_or_app; auto.
  - intros [H1 H2] x Hx. apply in_app_or in Hx. destruct Hx; auto.
Qed.
Lemma all_app a b : all_spec (a ++ b) <-> all_spec a /\ all_spec b.
Proof.
  unfold all_spec. split.
  - intros H. split; intros x Hx; apply H; apply in_or_app; auto.
  - intros [H1 H2] x Hx. apply in_app_or in Hx. destruct Hx; auto.
Qed.
Lemma none_dec m : none_spec m \/ ~ none_spec m.
Proof.
  induction m as [|b m IH]; [left; intros x []|].
  destruct b; [right; intros H; specialize (H true (or_introl eq_refl)); discriminate|].
  destruct IH as [IH|IH]; [left|right].
  - intros x [<-|Hx]; auto.
  - intros H. apply IH. intros x Hx. apply H. now right.
Qed.
Lemma count_app a b : count_spec (a ++ b) = count_spec a + count_spec b.
Proof. induction a as [|x a IH]; cbn; auto. rewrite IH. lia. Qed.
Lemma to_int_bound m : 0 <= to_int_spec m < 2 ^ Z.of_nat (length m).
Proof.
  induction m as [|b m IH]; cbn [to_int_spec length]; [cbn; lia|].
  rewrite Nat2Z.inj_succ, Z.pow_succ_r by lia. destruct b; lia.
Qed.
Lemma to_int_app a b : to_int_spec (a ++ b) = to_int_spec a + 2 ^ Z.of_nat (length a) * to_int_spec b.
Proof.
  induction a as [|x a IH]; cbn [to_int_spec app length].
  - change (Z.of_nat 0) with 0. rewrite Z.pow_0_r. lia.
  - rewrite Nat2Z.inj_succ, Z.pow_succ_r by lia. rewrite IH. ring.
Qed.
Lemma lor_disjoint_add a b n : 0 <= n -> 0 <= a < 2 ^ n -> Z.lor a (Z.shiftl b n) = a + 2 ^ n * b.
Proof.
  intros Hn Ha. rewrite Z.shiftl_mul_pow2 by lia.
  assert (L : Z.land a (b * 2 ^ n) = 0).
  { apply Z.bits_inj'. intros i Hi. rewrite Z.land_spec, Z.bits_0.
    destruct (Z.ltb_spec i n).
    - rewrite Z.mul_pow2_bits_low by lia. apply andb_false_r.
    - replace (Z.testbit a i) with false; auto. symmetry.
      destruct (Z.eq_dec a 0) as [->|]; [apply Z.bits_0|].
      apply Z.bits_above_log2; [lia|]. apply Z.log2_lt_pow2; [lia|].
      eapply Z.lt_le_trans; [apply Ha|]. apply Z.pow_le_mono_r; lia. }
  rewrite <- Z.lxor_lor by exact L. rewrite <- Z.add_nocarry_lxor by exact L. lia.
Qed.

Section MasksP.
  Context (native : nat -> bool) (K : native_mask_ops).
  Hypothesis Hw : widths_ok native.
  Hypothesis HK : native_masks_ok native K.

  Ltac leaf HK := cbn; subst; apply HK; auto.

  Lemma is_full_ok n t : wf native n t -> (is_full K t = true <-> all_spec (to_list t)).
  Proof.
    induction 1 as [n xs N L|n l r N Wl IHl Wr IHr]; [subst n; now apply HK|].
    cbn [is_full to_list]. rewrite andb_true_iff, all_app. tauto.
  Qed.
  Lemma is_empty_ok n t : wf native n t -> (is_empty K t = true <-> none_spec (to_list t)).
  Proof.
    induction 1 as [n xs N L|n l r N Wl IHl Wr IHr]; [subst n; now apply HK|].
    cbn [is_empty to_list]. rewrite andb_true_iff, none_app. tauto.
  Qed.
  Lemma is_not_empty_ok n t : wf native n t -> (is_not_empty K t = true <-> ~ none_spec (to_list t)).
  Proof.
    induction 1 as [n xs N L|n l r N Wl IHl Wr IHr]; [subst n; now apply HK|].
    cbn [is_not_empty to_list]. rewrite orb_true_iff, none_app.
    destruct (none_dec (to_list l)); tauto.
  Qed.
  Lemma count_ok n t : wf native n t -> count K t = count_spec (to_list t).
  Proof.
    induction 1 as [n xs N L|n l r N Wl IHl Wr IHr]; [subst n; now apply HK|].
    cbn [count to_list]. rewrite count_app. lia.
  Qed.
  Lemma to_int_ok n t : wf native n t -> (n <= 31)%nat -> to_int K t = Some (to_int_spec (to_list t)).
  Proof.
    induction 1 as [n xs N L|n l r N Wl IHl Wr IHr]; intros Hn.
    - subst n. cbn. f_equal. now apply HK.
    - pose proof (wf_size native Hw _ _ (wf_node _ _ _ _ N Wl Wr)) as (S1 & S2 & S3).
      pose proof (not_native_ge2 native Hw n S3 N) as H2. destruct (right_left n H2) as [R1 R2].
      cbn [to_int to_list]. rewrite IHl, IHr by lia. cbn [obind].
      rewrite (wf_isz native Hw _ _ Wl). destruct (Z.ltb_spec (Z.of_nat (left_size n)) 32); [|lia].
      f_equal. rewrite to_int_app, (wf_len native Hw _ _ Wl).
      apply lor_disjoint_add; [lia|]. rewrite <- (wf_len native Hw _ _ Wl). apply to_int_bound.
  Qed.
  Lemma to_int_ub n t : wf native n t -> (32 < n)%nat -> native n = false -> to_int K t = None.
  Proof.
    intros W Hn N. inversion W as [n' xs|n' l r E Wl Wr]; subst t; [congruence|].
    pose proof (not_native_ge2 native Hw n ltac:(lia) N) as H2. destruct (right_left n H2) as [R1 R2].
    cbn [to_int]. rewrite (wf_isz native Hw _ _ Wl).
    assert (G : (32 <= left_size n)%nat).
    { destruct (left_size_spec n H2) as (k & Ek & K1 & K2).
      destruct (Nat.lt_ge_cases (left_size n) 32) as [Q|]; auto. exfalso.
      assert (k < 5)%nat.
      { destruct (Nat.lt_ge_cases k 5) as [|K5]; auto.
        pose proof (Nat.pow_le_mono_r 2 5 k ltac:(lia) K5) as K6. change (Nat.pow 2 5) with 32%nat in K6. lia. }
      assert (Nat.pow 2 k <= 16)%nat. { change 16%nat with (Nat.pow 2 4). apply Nat.pow_le_mono_r; lia. }
      lia. }
    destruct (Z.ltb_spec (Z.of_nat (left_size n)) 32); [lia|].
    destruct (to_int K l); cbn; auto. destruct (to_int K r); auto.
  Qed.
  Lemma first_one_ok n t : wf native n t -> ~ none_spec (to_list t) -> first_one_spec (to_list t) (first_one K t).
  Proof.
    induction 1 as [n xs N L|n l r N Wl IHl Wr IHr]; intros HN.
    - subst n. now apply HK.
    - cbn [first_one to_list]. pose proof (is_empty_ok _ _ Wl) as El. rewrite (wf_isz native Hw _ _ Wl).
      pose proof (wf_size native Hw _ _ Wl) as (_ & L0 & P0).
      destruct (is_empty K l).
      + assert (none_spec (to_list l)) as NL by tauto.
        destruct IHr as [I1 I2]. { intros Q. apply HN. cbn. apply none_app. tauto. }
        assert (Z.of_nat (left_size n) <= first_one K r + Z.of_nat (left_size n)).
        { destruct (Z.leb_spec 0 (first_one K r)); [lia|]. rewrite znth_out in I1 by lia. discriminate. }
        split.
        * rewrite znth_app, L0. zcases. rewrite Z.add_simpl_r. auto.
        * intros j Hj. rewrite znth_app, L0. zcases.
          -- rewrite znth_in by lia. apply NL. apply nth_In. lia.
          -- apply I2. lia.
      + destruct IHl as [I1 I2]; [intros Q; apply El in Q; discriminate|].
        assert (first_one K l < Z.of_nat (left_size n)).
        { destruct (Z.ltb_spec (first_one K l) (Z.of_nat (left_size n))); auto. rewrite znth_out in I1 by lia. discriminate. }
        split.
        * rewrite znth_app, L0. zcases. auto.
        * intros j Hj. rewrite znth_app, L0. zcases. auto.
  Qed.
  Lemma mask_eq_ok n t x : wf native n t -> wf native n x ->
    exists b, mask_eq K t x = Some b /\ (b = true <-> to_list t = to_list x).
  Proof.
    intros W; revert x; induction W as [n xs N L|n l r N Wl IHl Wr IHr]; intros x Wx.
    - inversion Wx as [n' ys N' L'|]; subst x; [|congruence]. cbn. eexists. split; [reflexivity|].
      apply HK; congruence.
    - inversion Wx as [|n' l' r' N' Wl' Wr']; subst x; [congruence|]. cbn [mask_eq to_list].
      destruct (IHl _ Wl') as (a & -> & Ea). destruct (IHr _ Wr') as (b & -> & Eb). cbn [obind].
      eexists. split; [reflexivity|]. rewrite andb_true_iff, Ea, Eb.
      pose proof (wf_len native Hw _ _ Wl). pose proof (wf_len native Hw _ _ Wl').
      split; [intros [-> ->]; auto|]. intros Q. apply app_eq_app in Q.
      destruct Q as (q & [[Q1 Q2]|[Q1 Q2]]); apply (f_equal (@length bool)) in Q1 as Q3; rewrite app_length in Q3;
        destruct q; cbn in Q3; try lia; rewrite app_nil_r in Q1; cbn in Q2; auto.
  Qed.
  Lemma mask_neq_ok n t x : wf native n t -> wf native n x ->
    exists b, mask_neq K t x = Some b /\ (b = true <-> to_list t <> to_list x).
  Proof.
    intros W; revert x; induction W as [n xs N L|n l r N Wl IHl Wr IHr]; intros x Wx.
    - inversion Wx as [n' ys N' L'|]; subst x; [|congruence]. cbn. eexists. split; [reflexivity|].
      apply HK; congruence.
    - inversion Wx as [|n' l' r' N' Wl' Wr']; subst x; [congruence|]. cbn [mask_neq to_list].
      destruct (IHl _ Wl') as (a & -> & Ea). destruct (IHr _ Wr') as (b & -> & Eb). cbn [obind].
      eexists. split; [reflexivity|]. rewrite orb_true_iff, Ea, Eb.
      pose proof (wf_len native Hw _ _ Wl). pose proof (wf_len native Hw _ _ Wl').
      assert (Q : to_list l ++ to_list r = to_list l' ++ to_list r' <-> to_list l = to_list l' /\ to_list r = to_list r').
      { split; [|intros [-> ->]; auto]. intros Q. apply app_eq_app in Q.
        destruct Q as (q & [[Q1 Q2]|[Q1 Q2]]); apply (f_equal (@length bool)) in Q1 as Q3; rewrite app_length in Q3;
        destruct q; cbn in Q3; try lia; rewrite app_nil_r in Q1; cbn in Q2; auto. }
      rewrite Q. destruct (list_eq_dec bool_dec (to_list l) (to_list l')); tauto.
  Qed.
  Lemma mask_get_ok n t i : wf native n t -> 0 <= i < Z.of_nat n -> mask_get t i = Some (znth false (to_list t) i).
  Proof.
    intros W; revert i; induction W as [n xs N L|n l r N Wl IHl Wr IHr]; intros i Hi.
    - subst n. cbn. destruct (Z.leb_spec 0 i), (Z.ltb_spec i (Z.of_nat (length xs))); try lia. reflexivity.
    - pose proof (wf_size native Hw _ _ (wf_node _ _ _ _ N Wl Wr)) as (S1 & S2 & S3).
      pose proof (not_native_ge2 native Hw n S3 N) as H2. destruct (right_left n H2) as [R1 R2].
      cbn [mask_get]. rewrite (wf_isz native Hw _ _ Wl). rewrite (X_node native false Hw _ _ _ _ _ Wl Wr).
      zcases; [apply IHl|apply IHr]; lia.
  Qed.
  Lemma mask_shifted_ok n t k : wf native n t -> Z.of_nat n <= 2 ^ 31 -> - 2 ^ 31 <= k < 2 ^ 31 ->
    good native n (mask_shifted native t k) (fun i => znth false (to_list t) (i + k)).
  Proof.
    intros W Hn Hk. pose proof (wf_size native Hw _ _ W) as (S1 & S2 & S3).
    unfold mask_shifted. destruct (Z.eqb_spec k 0) as [->|].
    - eapply good_ext; [apply (good_self native false Hw); eauto|]. intros; f_equal; lia.
    - rewrite S1, (wf_isz native Hw _ _ W). apply generate_opt_good; auto. intros i Hi. cbv zeta.
      change (2 ^ 31) with 2147483648 in *. change (2 ^ 32) with 4294967296.
      destruct (Z.ltb_spec (i + k) 0).
      + rewrite (znth_out _ _ _ (i + k)) by lia.
        replace ((i + k) mod 4294967296) with (i + k + 4294967296).
        * zcases. reflexivity.
        * apply Z.mod_unique with (q := -1); lia.
      + rewrite Z.mod_small by lia. zcases.
        * apply (mask_get_ok n); auto. 
        * rewrite znth_out by lia. reflexivity.
  Qed.

  (** Masked reductions *)
  Context {A : Type} (f : A -> A -> A) (mred : list A -> list bool -> A).
  Hypothesis Fa : forall x y z, f (f x y) z = f x (f y z).
  Hypothesis Hmred : native_reduce_masked_ok native f mred.

  Lemma select_none m (xs : list A) : none_spec m -> select_spec m xs = [].
  Proof.
    revert xs; induction m as [|b m IH]; intros xs H; [reflexivity|]. destruct xs as [|x xs]; [reflexivity|].
    cbn [select_spec]. rewrite (H b (or_introl eq_refl)). cbn. apply IH. intros y Hy. apply H. now right.
  Qed.

  Lemma reduce_masked_ok n t k : wf native n t -> wf native n k -> ~ none_spec (to_list k) ->
    exists v, reduce_masked K mred f t k = Some v /\ reduce_spec f (select_spec (to_list k) (to_list t)) = Some v.
  Proof.
    intros W; revert k; induction W as [n xs N L|n l r N Wl IHl Wr IHr]; intros k Wk HN.
    - inversion Wk as [n' ks N' L'|]; subst k; [|congruence]. cbn. eexists. split; [reflexivity|].
      apply Hmred; auto; congruence.
    - inversion Wk as [|n' k0 k1 N' Wk0 Wk1]; subst k; [congruence|]. cbn [reduce_masked to_list].
      rewrite select_app by (rewrite (wf_len native Hw _ _ Wk0), (wf_len native Hw _ _ Wl); auto).
      cbn [to_list] in HN. rewrite none_app in HN.
      pose proof (is_empty_ok _ _ Wk0) as E0. pose proof (is_empty_ok _ _ Wk1) as E1.
      destruct (is_empty K k0).
      + assert (none_spec (to_list k0)) as Q by tauto. rewrite (select_none _ _ Q). apply IHr; auto; tauto.
      + assert (~ none_spec (to_list k0)) as Q0 by (intros Q; apply E0 in Q; discriminate).
        destruct (is_empty K k1).
        * assert (none_spec (to_list k1)) as Q by tauto. rewrite (select_none _ _ Q), app_nil_r. apply IHl; auto.
        * assert (~ none_spec (to_list k1)) as Q1 by (intros Q; apply E1 in Q; discriminate).
          destruct (IHl _ Wk0 Q0) as (a & -> & Ra). destruct (IHr _ Wk1 Q1) as (b & -> & Rb). cbn [obind].
          eexists. split; [reflexivity|]. now apply reduce_app.
  Qed.
End MasksP.

(** * Write masking *)
Section Masking.
  Context {A : Type} (native : nat -> bool).
  Hypothesis Hw : widths_ok native.
  Context (nassign : list A -> list A -> list bool -> list A).
  Hypothesis Ha : native_assign_ok native nassign.

  Lemma assign_ok n x v k : wf native n x -> wf native n v -> wf native n k ->
    exists r, assign nassign x v k = Some r /\ wf native n r /\
      to_list r = masked_update_spec (to_list k) (to_list v) (to_list x).
  Proof.
    intros W; revert v k; induction W as [n xs N L|n l r N Wl IHl Wr IHr]; intros v k Wv Wk.
    - inversion Wv as [n' vs N' L'|]; subst v; [|congruence].
      inversion Wk as [n'' ks N'' L''|]; subst k; [|congruence]. cbn.
      rewrite Ha by congruence. eexists. split; [reflexivity|]. split; [|reflexivity].
      constructor; auto. unfold masked_update_spec. rewrite map3_length by congruence. auto.
    - inversion Wv as [|n' v0 v1 N' Wv0 Wv1]; subst v; [congruence|].
      inversion Wk as [|n'' k0 k1 N'' Wk0 Wk1]; subst k; [congruence|]. cbn [assign].
      destruct (IHl _ _ Wv0 Wk0) as (r0 & -> & W0 & L0). destruct (IHr _ _ Wv1 Wk1) as (r1 & -> & W1 & L1). cbn [obind].
      eexists. split; [reflexivity|]. split; [now constructor|]. cbn [to_list]. rewrite L0, L1.
      unfold masked_update_spec. rewrite map3_app; auto.
      + now rewrite (wf_len native Hw _ _ Wk0), (wf_len native Hw _ _ Wv0).
      + now rewrite (wf_len native Hw _ _ Wv0), (wf_len native Hw _ _ Wl).
  Qed.

  Lemma masked_op_assign_ok f n x v k : wf native n x -> wf native n v -> wf native n k ->
    exists r, masked_op_assign nassign f x v k = Some r /\ wf native n r /\
      to_list r = masked_update_spec (to_list k) (map2 f (to_list x) (to_list v)) (to_list x).
  Proof.
    intros Wx Wv Wk. unfold masked_op_assign.
    destruct (zip_sa_ok native Hw f _ _ _ Wx Wv) as (r & -> & Wr & Lr). cbn [obind].
    destruct (assign_ok n x r k Wx Wr Wk) as (s & -> & Ws & Ls). exists s. rewrite <- Lr. auto.
  Qed.

  Context (zero : A) (nszi : list A -> list bool -> list A).
  Hypothesis Hz : native_zero_inverted_ok native zero nszi.

  Lemma set_zero_inverted_ok n x k : wf native n x -> wf native n k ->
    exists r, set_zero_inverted nszi x k = Some r /\ wf native n r /\
      to_list r = map2 (fun x (b : bool) => if b then x else zero) (to_list x) (to_list k).
  Proof.
    intros W; revert k; induction W as [n xs N L|n l r N Wl IHl Wr IHr]; intros k Wk.
    - inversion Wk as [n'' ks N'' L''|]; subst k; [|congruence]. cbn.
      rewrite Hz by congruence. eexists. split; [reflexivity|]. split; [|reflexivity].
      constructor; auto. rewrite map2_length. lia.
    - inversion Wk as [|n'' k0 k1 N'' Wk0 Wk1]; subst k; [congruence|]. cbn [set_zero_inverted].
      destruct (IHl _ Wk0) as (r0 & -> & W0 & L0). destruct (IHr _ Wk1) as (r1 & -> & W1 & L1). cbn [obind].
      eexists. split; [reflexivity|]. split; [now constructor|]. cbn [to_list]. rewrite L0, L1.
      rewrite map2_app; auto. now rewrite (wf_len native Hw _ _ Wk0), (wf_len native Hw _ _ Wl).
  Qed.

  Lemma masked_increment_ok add one n x k : (forall a, add a zero = a) -> wf native n x -> wf native n k ->
    exists r, masked_increment nszi add one x k = Some r /\ wf native n r /\
      to_list r = masked_update_spec (to_list k) (map (fun a => add a one) (to_list x)) (to_list x).
  Proof.
    intros Hadd Wx Wk. unfold masked_increment.
    destruct (map_sa_ok native (fun _ : A => one) n x Wx) as [Wo Lo].
    destruct (set_zero_inverted_ok n _ k Wo Wk) as (o & -> & Wo' & Lo'). cbn [obind].
    destruct (zip_sa_ok native Hw add _ _ _ Wx Wo') as (r & -> & Wr & Lr).
    eexists. split; [reflexivity|]. split; auto. rewrite Lr, Lo', Lo.
    assert (LL : length (to_list x) = length (to_list k)) by (rewrite (wf_len native Hw _ _ Wx), (wf_len native Hw _ _ Wk); auto).
    revert LL. generalize (to_list x) (to_list k). clear - Hadd.
    unfold masked_update_spec.
    induction l as [|a l IH]; intros [|b k] HL; cbn [length] in HL; try lia; cbn [map map2 map3]; auto.
    rewrite IH by lia. destruct b; [auto|]. now rewrite Hadd.
  Qed.

  Lemma masked_increment_gen add one n x k : wf native n x -> wf native n k ->
    exists r, masked_increment nszi add one x k = Some r /\ wf native n r /\
      to_list r = map2 (fun (b : bool) a => add a (if b then one else zero)) (to_list k) (to_list x).
  Proof.
    intros Wx Wk. unfold masked_increment.
    destruct (map_sa_ok native (fun _ : A => one) n x Wx) as [Wo Lo].
    destruct (set_zero_inverted_ok n _ k Wo Wk) as (o & -> & Wo' & Lo'). cbn [obind].
    destruct (zip_sa_ok native Hw add _ _ _ Wx Wo') as (r & -> & Wr & Lr).
    eexists. split; [reflexivity|]. split; auto. rewrite Lr, Lo', Lo.
    assert (LL : length (to_list x) = length (to_list k)) by (rewrite (wf_len native Hw _ _ Wx), (wf_len native Hw _ _ Wk); auto).
    revert LL. generalize (to_list x) (to_list k). clear.
    induction l as [|a l IH]; intros [|b k] HL; cbn [length] in HL; try lia; cbn [map map2 map3]; auto.
    rewrite IH by lia. auto.
  Qed.
End Masking.
