(** Proofs about the SimdArray model: shifted, rotated, reversed, interleave on all sizes. *)
From Coq Require Import ZArith List Bool Lia Permutation.
From Verif.Spec Require Import Seq NativeSpec.
From Verif.Model Require Import SplitSize SimdArray.
From Verif.Proof Require Import SeqP SplitSizeP SimdArrayP.
Import ListNotations.
Local Open Scope Z_scope.

Ltac zcases := repeat match goal with
    | |- context [Z.ltb ?a ?b] => destruct (Z.ltb_spec a b); try lia
    | |- context [Z.leb ?a ?b] => destruct (Z.leb_spec a b); try lia
    | |- context [Z.eqb ?a ?b] => destruct (Z.eqb_spec a b); try lia
    end.

Lemma X_tab A (d : A) n f z :
  znth d (tab n f) z = if z <? 0 then d else if z <? Z.of_nat n then f z else d.
Proof. zcases; [apply znth_out; lia|now apply znth_tab|apply znth_out; rewrite tab_length; lia]. Qed.

Section SA.
  Context {A : Type} (native : nat -> bool) (ops : native_ops A) (zero : A).
  Hypothesis Hw : widths_ok native.
  Hypothesis Hm : native_moves_ok native zero ops.
  Notation wf := (wf native).
  Notation generate := (generate native).
  Notation cast := (cast native zero).
  Notation X := (znth zero).
  Notation good := (good native).
  Notation win := (win zero).
  Notation shifted := (shifted native ops zero).
  Notation shifted_in := (shifted_in native ops zero).

  Lemma good_cong n r (f g : Z -> A) : (forall z, 0 <= z < Z.of_nat n -> f z = g z) -> good n r f -> good n r g.
  Proof. intros. eapply good_ext; eauto. Qed.

  Lemma good_unique n t (f : Z -> A) : good n (Some t) f -> to_list t = tab n f.
  Proof. intros (t' & E & _ & L). congruence. Qed.

  Lemma pow2_left n : (2 <= n)%nat -> exists j, left_size n = Nat.pow 2 j.
  Proof. intros H. destruct (left_size_spec n H) as (k & ? & _). eauto. Qed.

  Lemma halves_pow2 n : (2 <= n)%nat -> left_size n = right_size n -> exists j, n = Nat.pow 2 j.
  Proof.
    intros H E. destruct (equal_halves_pow2 n H) as (k & ->); [|eauto].
    destruct (right_left n H). lia.
  Qed.

  Lemma shifted_pow2_good n t k : (exists j, n = Nat.pow 2 j) -> wf n t ->
    good n (shifted t k) (fun i => X (to_list t) (i + k)).
  Proof.
    intros P W. unfold SimdArray.shifted. apply shifted_pow2; auto.
    rewrite (wf_sz native Hw _ _ W). lia.
  Qed.

  (** The two-argument shift for every size, when shiftIn is large enough. *)
  Lemma shifted_in_f_good fuel n m t s k : (2 * n + 1 < fuel)%nat ->
    wf n t -> wf m s -> - Z.of_nat n <= k <= Z.of_nat n -> ((n <= m)%nat \/ 0 <= k <= Z.of_nat m) ->
    good n (shifted_in_f native ops zero fuel t k s)
           (win (Z.of_nat n) (X (to_list t)) (X (to_list s)) k).
  Proof.
    intros HF W Ws Hk Hs. pose proof (wf_size native Hw _ _ W) as (S1 & S2 & S3).
    pose proof (wf_size native Hw _ _ Ws) as (T1 & T2 & T3).
    destruct fuel as [|fuel']; [lia|].
    destruct t as [xs|d0 d1].
    - cbn [shifted_in_f].
      rewrite (wf_isz native Hw _ _ W).
      destruct (Z.leb_spec (- Z.of_nat n) k); [|lia]. destruct (Z.leb_spec k (Z.of_nat n)); [|lia].
      cbn [andb]. eapply leaf_shifted_in_good; eauto.
    - inversion W as [|n' l r E W0 W1]; subst n' l r.
      pose proof (not_native_ge2 native Hw _ S3 E) as H2.
      assert (D : (left_size n = right_size n /\ n = m /\ exists i0 i1, s = Node i0 i1) \/
                  shifted_in_f native ops zero (S fuel') (Node d0 d1) k s =
                  shifted_in_generic native zero (Node d0 d1) k s).
      { destruct s as [ys|i0 i1]; [right; reflexivity|]. cbn [shifted_in_f].
        rewrite (wf_sz native Hw _ _ W0), (wf_sz native Hw _ _ W1).
        change (size (Node d0 d1)) with (size d0 + size d1)%nat in S1.
        change (size (Node d0 d1)) with (size d0 + size d1)%nat. rewrite S1, T1.
        destruct (Nat.eqb_spec (left_size n) (right_size n)); cbn [andb negb]; [|right; reflexivity].
        destruct (Nat.eqb_spec n m); cbn [negb]; [left; eauto|right; reflexivity]. }
      destruct D as [(EQ & <- & i0 & i1 & ->)|R].
      + apply shifted_pow2; auto; try lia; try congruence. now apply halves_pow2.
      + rewrite R. eapply shifted_in_generic_good; eauto.
  Qed.

  Lemma shifted_in_good n m t s k :
    wf n t -> wf m s -> - Z.of_nat n <= k <= Z.of_nat n -> ((n <= m)%nat \/ 0 <= k <= Z.of_nat m) ->
    good n (shifted_in t k s) (win (Z.of_nat n) (X (to_list t)) (X (to_list s)) k).
  Proof.
    intros W Ws Hk Hs. unfold SimdArray.shifted_in. eapply shifted_in_f_good; eauto.
    rewrite (wf_sz native Hw _ _ W). lia.
  Qed.

  (** Composite arrays accept |k| up to 2n. *)
  Lemma shifted_in_node_good n t s k : native n = false ->
    wf n t -> wf n s -> - 2 * Z.of_nat n < k ->
    good n (shifted_in t k s) (win (Z.of_nat n) (X (to_list t)) (X (to_list s)) k).
  Proof.
    intros NN W Ws Hk. pose proof (wf_size native Hw _ _ W) as (S1 & S2 & S3).
    pose proof (wf_size native Hw _ _ Ws) as (T1 & T2 & T3).
    pose proof (not_native_ge2 native Hw _ S3 NN) as H2.
    inversion W as [n' xs|n' d0 d1 E W0 W1]; subst n' t; [congruence|].
    inversion Ws as [n' xs|n' i0 i1 E' V0 V1]; subst n' s; [congruence|].
    destruct (Nat.eq_dec (left_size n) (right_size n)) as [EQ|NE].
    - destruct (Z.ltb_spec k (2 * Z.of_nat n)) as [K2|K2].
      + unfold SimdArray.shifted_in. apply shifted_pow2; auto; try lia; try congruence.
        now apply halves_pow2.
      + unfold SimdArray.shifted_in. rewrite S1. replace (2 * n + 2)%nat with (S (2 * n + 1)) by lia.
        cbn [shifted_in_f]. rewrite (wf_isz native Hw _ _ W), (wf_isz native Hw _ _ W0), S1, T1, (wf_sz native Hw _ _ W0), (wf_sz native Hw _ _ W1).
        rewrite EQ, !Nat.eqb_refl. cbn [andb negb].
        destruct (right_left n H2). rewrite <- EQ.
        zcases. eapply good_cong; [|apply zeros_good; auto].
        intros z Hz. unfold SimdArrayP.win. zcases. reflexivity.
    - unfold SimdArray.shifted_in. replace (2 * size (Node d0 d1) + 2)%nat with (S (2 * size (Node d0 d1) + 1)) by lia.
      cbn [shifted_in_f]. rewrite (wf_sz native Hw _ _ W0), (wf_sz native Hw _ _ W1).
      destruct (Nat.eqb_spec (left_size n) (right_size n)); [congruence|]. cbn [andb negb].
      eapply shifted_in_generic_good; eauto.
  Qed.

  (** Amounts for which the one-argument shift of an n element array is right. *)
  Lemma shifted_outer_good n t k : wf n t ->
    (native n = true \/ k = 0 \/ Z.of_nat (left_size n) <= Z.abs k) ->
    good n (shifted t k) (fun i => X (to_list t) (i + k)).
  Proof.
    intros W Hk. pose proof (wf_size native Hw _ _ W) as (S1 & S2 & S3).
    unfold SimdArray.shifted. replace (2 * size t + 2)%nat with (S (2 * n + 1)) by lia.
    destruct t as [xs|data0 data1].
    { cbn [shifted_f]. now apply leaf_shifted_good. }
    inversion W as [|n' l r E W0 W1]; subst n' l r.
    destruct Hk as [Hk|Hk]; [congruence|].
    pose proof (not_native_ge2 native Hw n S3 E) as H2.
    destruct (right_left n H2) as [R1 R2].
    set (h := left_size n) in *. set (h1 := right_size n) in *.
    assert (Ph : exists j, h = Nat.pow 2 j) by (now apply pow2_left).
    assert (XN : forall z, X (to_list (Node data0 data1)) z = if z <? Z.of_nat h then X (to_list data0) z else X (to_list data1) (z - Z.of_nat h))
          by (intros; eapply X_node; eauto).
    pose proof (fun z => X_out native zero Hw _ _ z W0) as O0. pose proof (fun z => X_out native zero Hw _ _ z W1) as O1.
    cbn [shifted_f].
    rewrite (wf_isz native Hw _ _ W), (wf_isz native Hw _ _ W0), (wf_isz native Hw _ _ W1), S1, (wf_sz native Hw _ _ W0), (wf_sz native Hw _ _ W1) in *.
    fold h h1.
    destruct (Z.eqb_spec k 0).
    { eapply good_ext; [apply (good_self native zero Hw); exact W|]. intros; f_equal; lia. }
    destruct (Z.ltb_spec k 0).
    { destruct (Z.ltb_spec (- Z.of_nat h) k); [lia|].
      destruct (Z.eqb_spec k (- Z.of_nat h)).
      + eapply (good_node' native zero Hw); eauto; fold h h1; [apply generate_wf; auto; lia|apply cast_wf; auto; lia| |].
        * intros z Hz. rewrite zeros_list by (auto; lia). rewrite XN. zcases. rewrite O0; auto; lia.
        * intros z Hz. rewrite cast_list by (auto; lia). rewrite znth_tab by lia. rewrite XN. zcases. f_equal; lia.
      + destruct (Z.ltb_spec k (- Z.of_nat h)); [|lia].
        eapply obind_good; [apply (proj1 (shifted_pow2 native ops zero Hw Hm _) h); auto; lia|]. intros t' W' L'.
        eapply (good_node' native zero Hw); eauto; fold h h1; [apply generate_wf; auto; lia|apply cast_wf; auto; lia| |].
        * intros z Hz. rewrite zeros_list by (auto; lia). rewrite XN. zcases. rewrite O0; auto; lia.
        * intros z Hz. rewrite cast_list, znth_tab by (auto; lia). rewrite L', znth_tab by lia. rewrite XN. zcases. f_equal; lia. }
    destruct (Z.leb_spec (Z.of_nat n) k).
    { eapply good_ext; [apply (zeros_good native zero Hw); lia|]. intros z Hz. rewrite XN. zcases. rewrite O1; auto. lia. }
    destruct (Z.leb_spec (Z.of_nat h) k); [|lia].
    eapply obind_good; [apply (proj1 (shifted_pow2 native ops zero Hw Hm _) h); auto; [apply cast_wf; auto; lia|lia]|]. intros t' W' L'.
    eapply (good_node' native zero Hw); eauto; fold h h1; [apply generate_wf; auto; lia| |].
    - intros z Hz. rewrite L', znth_tab by lia. rewrite XN. zcases.
      rewrite cast_list by (auto; lia). rewrite X_tab. zcases; [f_equal; lia|].
      rewrite O1; auto; lia.
    - intros z Hz. rewrite zeros_list by (auto; lia). rewrite XN. zcases. rewrite O1; auto; lia.
  Qed.

  (** For unequal halves every small left shift is wrong for some input. *)
  Lemma shifted_wrong n k one : native n = false -> (1 <= n)%nat -> left_size n <> right_size n ->
    - Z.of_nat (left_size n) < k < 0 -> one <> zero ->
    exists t, wf n t /\
      (forall r, shifted t k = Some r -> to_list r <> tab n (fun i => X (to_list t) (i + k))).
  Proof.
    intros NN S3 NE Hk NZ.
    pose proof (not_native_ge2 native Hw _ S3 NN) as H2. destruct (right_left n H2) as [R1 R2].
    set (f := fun i => if i =? Z.of_nat (left_size n) + k then one else zero).
    exists (generate n f). split; [apply generate_wf; auto|].
    intros r Hr. pose proof (generate_wf native Hw n f S3) as W.
    pose proof (generate_list native Hw n f S3) as L.
    set (t := generate n f) in *. clearbody t.
    inversion W as [n' xs|n' d0 d1 E W0 W1]; subst n' t; [congruence|].
    pose proof (wf_sz native Hw _ _ W) as S1.
    unfold SimdArray.shifted in Hr.
    replace (2 * size (Node d0 d1) + 2)%nat with (S (2 * n + 1)) in Hr by lia.
    cbn [shifted_f] in Hr.
    rewrite (wf_isz native Hw _ _ W), (wf_isz native Hw _ _ W0), (wf_isz native Hw _ _ W1), S1, (wf_sz native Hw _ _ W0), (wf_sz native Hw _ _ W1) in Hr.
    destruct (Z.eqb_spec k 0); [lia|]. destruct (Z.ltb_spec k 0); [|lia].
    destruct (Z.ltb_spec (- Z.of_nat (left_size n)) k); [|lia].
    change (obind (shifted_f native ops zero (2 * n + 1) d0 k) (fun r0 =>
      obind (shifted_in_f native ops zero (2 * n + 1) d1 k d0) (fun r1 => Some (Node r0 r1))) = Some r) in Hr.
    destruct (shifted_f native ops zero (2 * n + 1) d0 k) as [r0|] eqn:E0; [|cbn [obind] in Hr; discriminate Hr].
    cbn [obind] in Hr.
    pose proof (proj1 (shifted_pow2 native ops zero Hw Hm (2 * n + 1)) (left_size n) d0 k (pow2_left n H2) W0 ltac:(lia)) as G0.
    rewrite E0 in G0. apply good_unique in G0.
    destruct (shifted_in_f native ops zero (2 * n + 1) d1 k d0) as [r1|] eqn:E1; [|cbn [obind] in Hr; discriminate Hr].
    cbn [obind] in Hr. inversion Hr; subst r; clear Hr.
    assert (Hz : X (to_list r1) 0 = zero).
    { assert (Gx : X (to_list d0) (k + Z.of_nat (right_size n)) = zero).
      { assert (Q : X (to_list (Node d0 d1)) (k + Z.of_nat (right_size n)) = zero).
        { rewrite L, X_tab. unfold f. zcases; auto. }
        rewrite (X_node native zero Hw _ _ _ _ _ W0 W1) in Q.
        destruct (Z.ltb_spec (k + Z.of_nat (right_size n)) (Z.of_nat (left_size n))); [auto|lia]. }
      destruct (Z.leb_spec (- Z.of_nat (right_size n)) k) as [K1|K1].
      - pose proof (shifted_in_f_good (2 * n + 1) (right_size n) (left_size n) d1 d0 k ltac:(lia) W1 W0 ltac:(lia) ltac:(lia)) as G.
        rewrite E1 in G. apply good_unique in G. rewrite G, X_tab. unfold SimdArrayP.win. zcases.
        etransitivity; [|exact Gx]. f_equal; lia.
      - destruct d1 as [ys|e0 e1].
        + exfalso. replace (2 * n + 1)%nat with (S (2 * n)) in E1 by lia. cbn [shifted_in_f] in E1.
          rewrite (wf_isz native Hw _ _ W1) in E1. destruct (Z.leb_spec (- Z.of_nat (right_size n)) k); [lia|discriminate].
        + assert (F1 : (2 * n + 1 = S (2 * n))%nat) by lia. rewrite F1 in E1. cbn [shifted_in_f] in E1.
          pose proof (shifted_in_generic_good native zero Hw (right_size n) (left_size n) (Node e0 e1) d0 k W1 W0 ltac:(lia)) as G.
          assert (GE : shifted_in_generic native zero (Node e0 e1) k d0 = Some r1).
          { destruct d0 as [zs|g0 g1]; auto.
            rewrite (wf_sz native Hw _ _ W1), (wf_sz native Hw _ _ W0) in E1.
            destruct (Nat.eqb_spec (right_size n) (left_size n)); [congruence|].
            rewrite andb_false_r in E1. exact E1. }
          rewrite GE in G. apply good_unique in G. rewrite G, X_tab. unfold SimdArrayP.win. zcases. reflexivity. }
    intros HC. apply (f_equal (fun l => X l (Z.of_nat (left_size n)))) in HC.
    cbn [to_list] in HC. rewrite G0 in HC. rewrite znth_app, tab_length in HC.
    destruct (Z.ltb_spec (Z.of_nat (left_size n)) (Z.of_nat (left_size n))); [lia|].
    rewrite Z.sub_diag, Hz in HC. rewrite X_tab in HC.
    destruct (Z.ltb_spec (Z.of_nat (left_size n)) 0); [lia|].
    destruct (Z.ltb_spec (Z.of_nat (left_size n)) (Z.of_nat n)); [|lia].
    change (to_list d0 ++ to_list d1) with (to_list (Node d0 d1)) in HC.
    rewrite L, X_tab in HC. unfold f in HC.
    destruct (Z.ltb_spec (Z.of_nat (left_size n) + k) 0); [lia|].
    destruct (Z.ltb_spec (Z.of_nat (left_size n) + k) (Z.of_nat n)); [|lia].
    rewrite Z.eqb_refl in HC. congruence.
  Qed.

  (** rotated *)
  Lemma rem_adj k n : 0 < n ->
    (if Z.rem k n <? 0 then Z.rem k n + n else Z.rem k n) = k mod n.
  Proof.
    intros Hn. pose proof (Z.quot_rem' k n). pose proof (Z.rem_bound_abs k n ltac:(lia)).
    destruct (Z.ltb_spec (Z.rem k n) 0).
    - apply Z.mod_unique with (q := Z.quot k n - 1); [lia|]. nia.
    - apply Z.mod_unique with (q := Z.quot k n); lia.
  Qed.

  Lemma mod_add_lt z a n : 0 <= a < n -> 0 <= z < n ->
    (z + a) mod n = if z + a <? n then z + a else z + a - n.
  Proof.
    intros Ha Hz. destruct (Z.ltb_spec (z + a) n).
    - apply Z.mod_small; lia.
    - symmetry. apply Z.mod_unique with (q := 1); lia.
  Qed.

  Ltac vals := repeat match goal with
    | L : to_list ?t = tab _ _ |- context [to_list ?t] => rewrite L
    end.

  Lemma rotated_good n t k : wf n t ->
    good n (rotated native ops zero t k) (fun i => X (to_list t) ((i + k) mod Z.of_nat n)).
  Proof.
    intros W. pose proof (wf_size native Hw _ _ W) as (S1 & S2 & S3).
    destruct t as [xs|data0 data1].
    { cbn [rotated]. inversion W as [n' xs' N L|]; subst n' xs' n.
      rewrite (nm_rotated _ _ _ Hm) by auto.
      eexists. split; [reflexivity|]. unfold rotate_spec. split; [constructor; rewrite ?tab_length; auto|reflexivity]. }
    inversion W as [|n' l r E W0 W1]; subst n' l r.
    pose proof (not_native_ge2 native Hw n S3 E) as H2.
    destruct (right_left n H2) as [R1 R2].
    set (h0 := left_size n) in *. set (h1 := right_size n) in *.
    assert (Ph : exists j, h0 = Nat.pow 2 j) by (now apply pow2_left).
    assert (XN : forall z, X (to_list (Node data0 data1)) z = if z <? Z.of_nat h0 then X (to_list data0) z else X (to_list data1) (z - Z.of_nat h0))
          by (intros; eapply X_node; eauto).
    unfold rotated. cbv zeta.
    rewrite (wf_isz native Hw _ _ W), (wf_isz native Hw _ _ W0), (wf_isz native Hw _ _ W1), (wf_sz native Hw _ _ W0), (wf_sz native Hw _ _ W1).
    fold h0 h1.
    pose proof (rem_adj k (Z.of_nat n) ltac:(lia)) as RA.
    pose proof (Z.mod_pos_bound k (Z.of_nat n) ltac:(lia)) as MB.
    assert (TGT : forall z, 0 <= z < Z.of_nat n -> (z + k) mod Z.of_nat n = (if z + k mod Z.of_nat n <? Z.of_nat n then z + k mod Z.of_nat n else z + k mod Z.of_nat n - Z.of_nat n)).
    { intros z Hz. rewrite <- Z.add_mod_idemp_r by lia. now apply mod_add_lt. }
    destruct (Z.eqb_spec (Z.rem k (Z.of_nat n)) 0) as [R0|R0].
    { eapply good_ext; [apply (good_self native zero Hw); exact W|]. intros z Hz. cbn beta. rewrite TGT by auto.
      assert (k mod Z.of_nat n = 0) as -> by (rewrite <- RA, R0; reflexivity). zcases. f_equal; lia. }
    assert (A0 : k mod Z.of_nat n <> 0).
    { rewrite <- RA. pose proof (Z.rem_bound_abs k (Z.of_nat n) ltac:(lia)). zcases. }
    rewrite RA. set (a := k mod Z.of_nat n) in *. clearbody a. clear RA R0.
    pose proof (cast_wf native zero Hw h1 data0 ltac:(lia)) as Wd0.
    pose proof (cast_list native zero Hw h1 data0 ltac:(lia)) as Ld0.
    pose proof (cast_wf native zero Hw h0 data1 ltac:(lia)) as Wd1.
    pose proof (cast_list native zero Hw h0 data1 ltac:(lia)) as Ld1.
    set (d0cvtd := cast h1 data0) in *. set (d1cvtd := cast h0 data1) in *. clearbody d0cvtd d1cvtd.
    Ltac fin W0 W1 XN TGT native zero Hw := intros z Hz; cbn beta; rewrite ?TGT by lia; rewrite ?XN; unfold SimdArrayP.win; cbv zeta;
       rewrite ?(cast_list native zero Hw) by lia;
       repeat (vals; rewrite ?X_tab; unfold SimdArrayP.win; cbv zeta); zcases;
       try (f_equal; lia);
       try (symmetry; eapply X_out; eauto; lia); try (eapply X_out; eauto; lia).
    destruct (Z.eqb_spec a (Z.of_nat h0)) as [EA|EA]; [destruct (Nat.eqb_spec h0 h1) as [EH|EH]|]; cbn [andb].
    { eapply (good_node' native zero Hw); eauto; fold h0 h1; try congruence; fin W0 W1 XN TGT native zero Hw. }
    all: destruct (Z.ltb_spec a (Z.of_nat h1)); try lia.
    2:{ eapply good_node; eauto; fold h0 h1.
        - eapply good_cong; [|eapply shifted_in_good; eauto; lia]. fin W0 W1 XN TGT native zero Hw.
        - eapply good_cong; [|eapply shifted_in_good; eauto; lia]. fin W0 W1 XN TGT native zero Hw. }
    all: destruct (Z.eqb_spec a (Z.of_nat h1)); try lia.
    2:{ eapply obind_good; [eapply shifted_in_good; eauto; lia|]. intros r0 Wr0 Lr0.
        eapply (good_node' native zero Hw); eauto; fold h0 h1; fin W0 W1 XN TGT native zero Hw. }
    all: destruct (Z.ltb_spec (Z.of_nat n - a) (Z.of_nat h1)); try lia.
    2:{ eapply obind_good; [apply shifted_pow2_good; eauto|]. intros s1 Ws1 Ls1.
        eapply obind_good; [eapply shifted_in_good; eauto; lia|]. intros r0 Wr0 Lr0.
        eapply obind_good; [apply (shifted_pow2_good h0); eauto|]. intros s0 Ws0 Ls0.
        eapply obind_good; [eapply (shifted_in_good h1 h0); eauto; lia|]. intros r1 Wr1 Lr1.
        eapply (good_node' native zero Hw); eauto; fold h0 h1; fin W0 W1 XN TGT native zero Hw. }
    all: destruct (Z.eqb_spec (Z.of_nat n - a) (Z.of_nat h1)); try lia.
    { eapply obind_good; [apply shifted_pow2_good; eauto|]. intros s1 Ws1 Ls1.
        eapply obind_good; [eapply shifted_in_good; eauto; lia|]. intros r0 Wr0 Lr0.
        eapply obind_good; [apply (shifted_pow2_good h0); eauto|]. intros s0 Ws0 Ls0.
        eapply (good_node' native zero Hw); eauto; fold h0 h1; [apply cast_wf; auto; lia| |]; fin W0 W1 XN TGT native zero Hw. }
    destruct (Z.leb_spec a (Z.of_nat h0)); [|lia].
    eapply obind_good; [eapply shifted_in_good; eauto; lia|]. intros s Ws Ls.
    eapply obind_good; [eapply (shifted_in_good h0 h0); eauto; lia|]. intros r0 Wr0 Lr0.
    eapply obind_good; [apply (shifted_pow2_good h0); eauto|]. intros s0 Ws0 Ls0.
    eapply (good_node' native zero Hw); eauto; fold h0 h1; [apply cast_wf; auto; lia| |]; fin W0 W1 XN TGT native zero Hw.
  Qed.

  (** reversed *)
  Lemma reversed_f_good : forall fuel n t, wf n t -> (n < fuel)%nat ->
    good n (reversed_f native ops zero fuel t) (fun i => X (to_list t) (Z.of_nat n - 1 - i)).
  Proof.
    induction fuel as [|fuel IH]; intros n t W HF; [lia|].
    pose proof (wf_size native Hw _ _ W) as (S1 & S2 & S3).
    destruct t as [xs|data0 data1].
    { cbn [reversed_f]. inversion W as [n' xs' N L|]; subst n' xs' n.
      rewrite (nm_reversed _ _ _ Hm) by auto.
      eexists. split; [reflexivity|]. split; [constructor; rewrite ?rev_length; auto|].
      cbn [to_list]. apply list_ext_tab with (d := zero); [now rewrite rev_length|].
      intros z Hz. now rewrite znth_rev. }
    inversion W as [|n' l r E W0 W1]; subst n' l r.
    pose proof (not_native_ge2 native Hw n S3 E) as H2.
    destruct (right_left n H2) as [R1 R2].
    set (h0 := left_size n) in *. set (h1 := right_size n) in *.
    assert (Ph : exists j, h0 = Nat.pow 2 j) by (now apply pow2_left).
    assert (XN : forall z, X (to_list (Node data0 data1)) z = if z <? Z.of_nat h0 then X (to_list data0) z else X (to_list data1) (z - Z.of_nat h0))
          by (intros; eapply X_node; eauto).
    cbn [reversed_f].
    rewrite (wf_isz native Hw _ _ W0), (wf_isz native Hw _ _ W1), (wf_sz native Hw _ _ W0), (wf_sz native Hw _ _ W1).
    fold h0 h1. pose proof I as TGT.
    pose proof (cast_wf native zero Hw h1 data0 ltac:(lia)) as Wd0.
    pose proof (cast_list native zero Hw h1 data0 ltac:(lia)) as Ld0.
    pose proof (cast_wf native zero Hw h0 data1 ltac:(lia)) as Wd1.
    pose proof (cast_list native zero Hw h0 data1 ltac:(lia)) as Ld1.
    destruct (Nat.eqb_spec h0 h1) as [EH|EH].
    - eapply good_node; eauto; fold h0 h1.
      + eapply good_cong; [|apply IH; eauto; lia]. fin W0 W1 XN XN native zero Hw.
      + eapply good_cong; [|apply IH; eauto; lia]. fin W0 W1 XN XN native zero Hw.
    - eapply obind_good; [eapply shifted_in_good; eauto; lia|]. intros s Ws Ls.
      eapply obind_good; [eapply IH; eauto; lia|]. intros r0 Wr0 Lr0.
      eapply obind_good; [eapply (IH h0 data0); eauto; lia|]. intros rv Wrv Lrv.
      eapply obind_good; [apply (shifted_pow2_good h0); eauto|]. intros s1 Ws1 Ls1.
      eapply (good_node' native zero Hw); eauto; fold h0 h1; [apply cast_wf; auto; lia| |]; fin W0 W1 XN XN native zero Hw.
  Qed.

  Lemma reversed_good n t : wf n t ->
    good n (reversed native ops zero t) (fun i => X (to_list t) (Z.of_nat n - 1 - i)).
  Proof.
    intros W. unfold reversed. apply reversed_f_good; auto. rewrite (wf_sz native Hw _ _ W). lia.
  Qed.

  (** interleave *)
  Definition IL (x y : Z -> A) (i : Z) : A := if Z.even i then x (i / 2) else y (i / 2).

  Lemma interleave_spec_IL xs ys z : length xs = length ys ->
    0 <= z < 2 * Z.of_nat (length xs) -> X (interleave_spec xs ys) z = IL (X xs) (X ys) z.
  Proof.
    revert ys z. induction xs as [|x xs IH]; intros [|y ys] z HL Hz; cbn [length] in *; try lia.
    cbn [interleave_spec]. unfold IL.
    change (x :: y :: interleave_spec xs ys) with ([x; y] ++ interleave_spec xs ys).
    change (x :: xs) with ([x] ++ xs). change (y :: ys) with ([y] ++ ys).
    rewrite !znth_app. cbn [length].
    destruct (Z.ltb_spec z (Z.of_nat 2)).
    - assert (z = 0 \/ z = 1) as [-> | ->] by lia; reflexivity.
    - assert (Q : z / 2 = (z - 2) / 2 + 1).
      { replace z with ((z - 2) + 1 * 2) at 1 by lia. rewrite Z.div_add by lia. reflexivity. }
      assert (0 <= (z - 2) / 2) by (apply Z.div_pos; lia).
      destruct (Z.ltb_spec (z / 2) (Z.of_nat 1)); [lia|].
      change (Z.of_nat 2) with 2. change (Z.of_nat 1) with 1.
      rewrite IH by lia. unfold IL.
      replace (z / 2 - 1) with ((z - 2) / 2) by lia.
      replace (Z.even z) with (Z.even (z - 2)); [reflexivity|].
      replace (z - 2) with (z + 2 * (-1)) by lia. now rewrite Z.even_add_mul_2.
  Qed.

  Lemma interleave_good : forall n t x, wf n t -> wf n x ->
    good n (interleave_low native ops zero t x) (IL (X (to_list t)) (X (to_list x))) /\
    good n (interleave_high native ops zero t x) (fun i => IL (X (to_list t)) (X (to_list x)) (i + Z.of_nat n)).
  Proof.
    intros n t; revert n. induction t as [xs|data0 IH0 data1 IH1]; intros n x W Wx;
      pose proof (wf_size native Hw _ _ W) as (S1 & S2 & S3).
    - inversion W as [n' xs' N L|]; subst n' xs' n.
      inversion Wx as [n' ys N' L'|]; subst x; [|congruence].
      cbn [interleave_low interleave_high to_list].
      rewrite (nm_interleave_low _ _ _ Hm), (nm_interleave_high _ _ _ Hm) by auto.
      assert (LE : length (interleave_spec xs ys) = (2 * length xs)%nat) by (apply interleave_length; auto).
      split; (eexists; split; [reflexivity|]; split; [constructor; auto; rewrite ?firstn_length, ?skipn_length, LE; lia|]).
      + cbn [to_list]. apply list_ext_tab with (d := zero); [rewrite firstn_length; lia|].
        intros z Hz. rewrite znth_firstn by lia. apply interleave_spec_IL; auto. lia.
      + cbn [to_list]. apply list_ext_tab with (d := zero); [rewrite skipn_length; lia|].
        intros z Hz. rewrite znth_skipn by lia. apply interleave_spec_IL; auto. lia.
    - inversion W as [|n' l r E W0 W1]; subst n' l r.
      inversion Wx as [n' ys N' L|n' x0 x1 E' V0 V1]; subst n' x; [congruence|].
      pose proof (not_native_ge2 native Hw n S3 E) as H2.
      destruct (right_left n H2) as [R1 R2].
      set (h0 := left_size n) in *. set (h1 := right_size n) in *.
      assert (XN : forall z, X (to_list (Node data0 data1)) z = if z <? Z.of_nat h0 then X (to_list data0) z else X (to_list data1) (z - Z.of_nat h0))
          by (intros; eapply X_node; eauto).
      assert (XS : forall z, X (to_list (Node x0 x1)) z = if z <? Z.of_nat h0 then X (to_list x0) z else X (to_list x1) (z - Z.of_nat h0))
          by (intros; eapply X_node; eauto).
      destruct (IH0 h0 x0 W0 V0) as [L0 G0]. destruct (IH1 h1 x1 W1 V1) as [L1 G1].
      assert (ILN : forall z, 0 <= z -> IL (X (to_list (Node data0 data1))) (X (to_list (Node x0 x1))) z =
        if z <? 2 * Z.of_nat h0 then IL (X (to_list data0)) (X (to_list x0)) z
        else IL (X (to_list data1)) (X (to_list x1)) (z - 2 * Z.of_nat h0)).
      { intros z Hz. unfold IL. rewrite XN, XS.
        assert (D : z = 2 * (z / 2) + z mod 2) by (apply Z.div_mod; lia).
        pose proof (Z.mod_pos_bound z 2 ltac:(lia)).
        assert (EV : Z.even (z - 2 * Z.of_nat h0) = Z.even z).
        { replace (z - 2 * Z.of_nat h0) with (z + 2 * (- Z.of_nat h0)) by lia. apply Z.even_add_mul_2. }
        assert (DV : (z - 2 * Z.of_nat h0) / 2 = z / 2 - Z.of_nat h0).
        { replace (z - 2 * Z.of_nat h0) with (z + (- Z.of_nat h0) * 2) by lia. rewrite Z.div_add by lia. lia. }
        rewrite EV, DV.
        destruct (Z.ltb_spec z (2 * Z.of_nat h0)), (Z.ltb_spec (z / 2) (Z.of_nat h0)); try lia; reflexivity. }
      cbn [interleave_low interleave_high].
      rewrite (wf_isz native Hw _ _ W1), (wf_sz native Hw _ _ W0), (wf_sz native Hw _ _ W1). fold h0 h1.
      split.
      + eapply obind_good; [exact L0|]. intros lo Wlo Llo.
        eapply obind_good; [exact G0|]. intros hi Whi Lhi.
        eapply (good_node' native zero Hw); eauto; fold h0 h1; [apply cast_wf; auto; lia| |]; intros z Hz; rewrite ILN by lia.
        * rewrite Llo, X_tab. zcases. reflexivity.
        * rewrite cast_list by (auto; lia). rewrite X_tab, Lhi, X_tab. zcases. reflexivity.
      + destruct (Nat.eqb_spec h0 h1) as [EH|EH].
        * eapply obind_good; [exact L1|]. intros lo Wlo Llo.
          eapply obind_good; [exact G1|]. intros hi Whi Lhi.
          eapply (good_node' native zero Hw); eauto; fold h0 h1; [congruence| |]; intros z Hz; rewrite ILN by lia.
          -- rewrite Llo, X_tab. zcases. f_equal. lia.
          -- rewrite Lhi, X_tab. zcases. f_equal. lia.
        * eapply obind_good; [exact G0|]. intros h0' Wh Lh.
          eapply obind_good; [exact L1|]. intros l1 Wl Ll.
          eapply obind_good; [eapply (shifted_in_good h0 h0); eauto; try lia; apply cast_wf; auto; lia|]. intros r0 Wr0 Lr0.
          eapply obind_good; [exact G1|]. intros r1 Wr1 Lr1.
          eapply (good_node' native zero Hw); eauto; fold h0 h1; intros z Hz; rewrite ILN by lia.
          -- rewrite Lr0, X_tab. unfold SimdArrayP.win. cbv zeta. rewrite cast_list by (auto; lia).
             rewrite Lh, Ll, !X_tab. zcases; f_equal; lia.
          -- rewrite Lr1, X_tab. zcases. f_equal. lia.
  Qed.
End SA.
