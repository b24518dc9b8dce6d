(** Floating-point programs in every build: sum() of entries whose additions are exact. *)
From Coq Require Import ZArith List Bool Lia.
From Verif.Spec Require Import Seq FloatSpec VectorSpec NativeSpec PortableSpec PortableFpSpec.
From Verif.Model Require Import SplitSize Word Fp FpArith SseReg SseMove SseInt SseBuild SseArith SimdArray SimdArrayOps
  AvxReg AvxMove AvxBuild AvxShuffle AvxMask AvxArith Program Portable PortableFp.
From Verif.Proof Require Import WordP FpP FpIntP SeqP SimdArrayP SimdArrayOpsP SseArithP SseFloatRedP SseVecMain AvxArithP PortableP PortableOpsP PortableFpP.
Import ListNotations.
Local Open Scope Z_scope.

Section Sum.
  Context {w : nat} (Hw : fp_width w) (k : Z) (K : 0 <= k) (KT : mant_bits w + 1 + k <= top_exp w).
  Notation B := (2 ^ (mant_bits w + 1 + k)).
  Definition zsum (xs : list (word w)) : Z := fold_right (fun x s => fvalue x + s) 0 xs.
  Definition zabs (xs : list (word w)) : Z := fold_right (fun x s => Z.abs (fvalue x) + s) 0 xs.
  Definition nz (x : word w) : bool := negative x && (fvalue x =? 0).
  Definition grid (x : word w) : Prop := is_Finite x = true /\ (2 ^ k | fvalue x).
  Definition fits (xs : list (word w)) : Prop := Forall grid xs /\ zabs xs < B.
  Definition sm (xs : list (word w)) (r : word w) : Prop := is_Finite r = true /\ fvalue r = zsum xs /\ nz r = forallb nz xs.

  Lemma add_ok (x y : word w) : grid x -> grid y -> Z.abs (fvalue x + fvalue y) < B ->
    grid (fadd x y) /\ fvalue (fadd x y) = fvalue x + fvalue y /\ nz (fadd x y) = nz x && nz y.
  Proof using Hw K KT.
    intros (Fx & Mx) (Fy & My) H. assert (M : (2 ^ k | fvalue x + fvalue y)) by now apply Z.divide_add_r. destruct (M) as (q & Q).
    assert (P : 0 < 2 ^ k) by (apply Z.pow_pos_nonneg; lia). destruct (exps Hw) as (PP & _).
    assert (R : repr (w := w) (Z.abs (fvalue x + fvalue y))).
    { rewrite Q, Z.abs_mul, (Z.abs_eq (2 ^ k)) by lia. apply (repr_pow Hw); [|exact K|exact KT]. split; [lia|]. rewrite Q, Z.abs_mul, (Z.abs_eq (2 ^ k)), Z.pow_add_r in H by lia. now apply Z.mul_lt_mono_pos_r in H. }
    destruct (fadd_repr Hw x y Fx Fy R) as (F & V & S). split; [split; [exact F|now rewrite V]|]. split; [exact V|]. unfold nz. rewrite V. destruct (Z.eqb_spec (fvalue x + fvalue y) 0) as [E|E].
    - rewrite (S E). pose proof (fvalue_abs Hw x) as Ax. pose proof (fvalue_abs Hw y) as Ay. pose proof (fabs_nonneg Hw x). pose proof (fabs_nonneg Hw y).
      destruct (negative x), (negative y); cbn [andb]; rewrite ?andb_false_r; auto. rewrite (proj2 (Z.eqb_eq _ _)), (proj2 (Z.eqb_eq _ _)) by lia. reflexivity.
    - rewrite andb_false_r. symmetry. apply andb_false_iff. destruct (Z.eqb_spec (fvalue x) 0); [|left; now rewrite andb_false_r]. right. destruct (Z.eqb_spec (fvalue y) 0); [lia|now rewrite andb_false_r].
  Qed.
  Lemma sm_unique xs r r' : sm xs r -> sm xs r' -> r = r'.
  Proof using Hw.
    intros (F & V & N) (F' & V' & N'). rewrite <- V' in V. rewrite <- N' in N. apply (same_value Hw); [rewrite !(fabs_abs Hw); now rewrite V|].
    unfold nz in N. rewrite V in N. pose proof (fvalue_abs Hw r) as A. pose proof (fvalue_abs Hw r') as A'. pose proof (fabs_nonneg Hw r). pose proof (fabs_nonneg Hw r').
    destruct (Z.eqb_spec (fvalue r') 0) as [E|E]; [now rewrite !andb_true_r in N|]. destruct (negative r), (negative r'); auto; lia.
  Qed.
  Lemma zsum_app xs ys : zsum (xs ++ ys) = zsum xs + zsum ys.
  Proof using. induction xs as [|x xs IH]; cbn; [reflexivity|]. change (fold_right (fun x s => fvalue x + s) 0 (xs ++ ys)) with (zsum (xs ++ ys)). rewrite IH. unfold zsum. lia. Qed.
  Lemma zabs_app xs ys : zabs (xs ++ ys) = zabs xs + zabs ys.
  Proof using. induction xs as [|x xs IH]; cbn; [reflexivity|]. change (fold_right (fun x s => Z.abs (fvalue x) + s) 0 (xs ++ ys)) with (zabs (xs ++ ys)). rewrite IH. unfold zabs. lia. Qed.
  Lemma zabs_bound xs : Z.abs (zsum xs) <= zabs xs.
  Proof using. induction xs as [|x xs IH]; cbn; [lia|]. fold (zsum xs) (zabs xs). lia. Qed.
  Lemma zsum_grid xs : Forall grid xs -> (2 ^ k | zsum xs).
  Proof using. induction 1 as [|x xs (_ & M) H IH]; cbn; [apply Z.divide_0_r|]. now apply Z.divide_add_r. Qed.
  Lemma fits_app xs ys : fits (xs ++ ys) -> fits xs /\ fits ys.
  Proof using.
    intros (G & H). apply Forall_app in G as (G1 & G2). rewrite zabs_app in H. pose proof (zabs_bound xs). pose proof (zabs_bound ys). repeat split; auto; lia.
  Qed.
  Lemma sm_grid xs r : fits xs -> sm xs r -> grid r.
  Proof using. intros (G & _) (F & V & _). split; [exact F|]. rewrite V. now apply zsum_grid. Qed.
  Lemma sm_app xs ys x y : fits (xs ++ ys) -> sm xs x -> sm ys y -> sm (xs ++ ys) (fadd x y).
  Proof using Hw K KT.
    intros H Sx Sy. destruct (fits_app _ _ H) as (H1 & H2). pose proof Sx as (_ & Vx & Nx). pose proof Sy as (_ & Vy & Ny).
    destruct (add_ok x y (sm_grid _ _ H1 Sx) (sm_grid _ _ H2 Sy)) as ((F & _) & V & N).
    { rewrite Vx, Vy, <- zsum_app. pose proof (zabs_bound (xs ++ ys)). destruct H. lia. }
    split; [exact F|]. rewrite zsum_app, forallb_app, V, N, Vx, Vy, Nx, Ny. auto.
  Qed.
  Lemma sm1 x : is_Finite x = true -> sm [x] x.
  Proof using. intros F. split; [exact F|]. cbn. rewrite andb_true_r. split; [lia|reflexivity]. Qed.
  Lemma fits_fin xs x : fits xs -> In x xs -> is_Finite x = true.
  Proof using. intros (G & _) I. rewrite Forall_forall in G. exact (proj1 (G x I)). Qed.
  Lemma sm_eq xs ys r : zsum xs = zsum ys -> forallb nz xs = forallb nz ys -> sm xs r -> sm ys r.
  Proof using. intros E1 E2 (F & V & N). split; [exact F|]. now rewrite <- E1, <- E2. Qed.
  Lemma fits_eq xs ys : (forall x, In x ys -> In x xs) -> zabs xs = zabs ys -> fits xs -> fits ys.
  Proof using. intros I E (G & H). rewrite Forall_forall in G. split; [apply Forall_forall; auto|now rewrite <- E]. Qed.
  Lemma loop_sm xs v : fits xs -> reduce_spec fadd xs = Some v -> sm xs v.
  Proof using Hw K KT.
    destruct xs as [|x xs]; cbn [reduce_spec]; [discriminate|]. intros H [= <-]. assert (G : forall ys pre a, fits (pre ++ ys) -> sm pre a -> sm (pre ++ ys) (fold_left fadd ys a)).
    { induction ys as [|y ys IH]; intros pre a Hf S; cbn [fold_left]; [now rewrite app_nil_r|]. replace (pre ++ y :: ys) with ((pre ++ [y]) ++ ys) in * by now rewrite <- app_assoc.
      apply IH; [exact Hf|]. apply sm_app; [exact (proj1 (fits_app _ _ Hf))|exact S|]. apply sm1, (fits_fin _ _ Hf). apply in_or_app. left. apply in_or_app. right. now left. }
    apply (G xs [x] x); [exact H|]. apply sm1, (fits_fin _ _ H). now left.
  Qed.
  Lemma zip_fits xs ys : length xs = length ys -> fits (xs ++ ys) -> fits (map2 fadd xs ys) /\ (forall r, sm (map2 fadd xs ys) r -> sm (xs ++ ys) r).
  Proof using Hw K KT.
    intros L H. destruct (fits_app _ _ H) as ((G1 & _) & (G2 & _)). destruct H as (_ & H). rewrite zabs_app in H.
    assert (X : Forall grid (map2 fadd xs ys) /\ zabs (map2 fadd xs ys) <= zabs xs + zabs ys /\ zsum (map2 fadd xs ys) = zsum xs + zsum ys /\ forallb nz (map2 fadd xs ys) = forallb nz xs && forallb nz ys).
    { revert ys L G2 H. induction G1 as [|x xs Gx G1 IH]; intros [|y ys] L G2 H; try discriminate L; [cbn; repeat split; auto; lia|]. inversion G2 as [|y' ys' Gy G2']; subst y' ys'. cbn [zabs fold_right] in H. fold (zabs xs) (zabs ys) in H.
      pose proof (zabs_bound xs). pose proof (zabs_bound ys). destruct (IH ys ltac:(now injection L) G2' ltac:(lia)) as (A1 & A2 & A3 & A4).
      destruct (add_ok x y Gx Gy ltac:(lia)) as (C1 & C2 & C3). cbn [map2]. split; [now constructor|]. cbn [zabs zsum fold_right forallb].
      fold (zabs (map2 fadd xs ys)) (zabs xs) (zabs ys) (zsum (map2 fadd xs ys)) (zsum xs) (zsum ys). rewrite C2, C3, A3, A4. repeat split; [lia|lia|]. destruct (nz x), (nz y); cbn [andb]; auto. now rewrite andb_false_r. }
    destruct X as (X1 & X2 & X3 & X4). split; [split; [exact X1|lia]|]. intros r. apply sm_eq; [now rewrite zsum_app|now rewrite forallb_app].
  Qed.
  Lemma sm2 x y : fits [x; y] -> sm [x; y] (fadd x y).
  Proof using Hw K KT. intros H. apply (sm_app [x] [y]); [exact H|apply sm1, (fits_fin _ _ H); now left|apply sm1, (fits_fin _ _ H); right; now left]. Qed.
  Lemma sm4 x y z u : fits [x; y; z; u] -> sm [x; y; z; u] (fadd (fadd x y) (fadd z u)).
  Proof using Hw K KT. intros H. destruct (fits_app [x; y] [z; u] H). apply (sm_app [x; y] [z; u]); [exact H|now apply sm2|now apply sm2]. Qed.
  Lemma sm8 x y z u x' y' z' u' : fits [x; y; z; u; x'; y'; z'; u'] -> sm [x; y; z; u; x'; y'; z'; u'] (fadd (fadd (fadd x y) (fadd z u)) (fadd (fadd x' y') (fadd z' u'))).
  Proof using Hw K KT. intros H. destruct (fits_app [x; y; z; u] [x'; y'; z'; u'] H). apply (sm_app [x; y; z; u] [x'; y'; z'; u']); [exact H|now apply sm4|now apply sm4]. Qed.
  Lemma sum_haps x0 x1 x2 x3 : fits [x0; x1; x2; x3] -> sm [x0; x1; x2; x3] (fadd (fadd x0 x3) (fadd x1 x2)).
  Proof using Hw K KT.
    intros H. apply (sm_eq [x0; x3; x1; x2]); [cbn; lia|cbn; destruct (nz x0), (nz x1), (nz x2), (nz x3); reflexivity|]. apply sm4. eapply fits_eq; [| |exact H]; [cbn; tauto|cbn; lia].
  Qed.
  Lemma sum_ypd x0 x1 x2 x3 : fits [x0; x1; x2; x3] -> sm [x0; x1; x2; x3] (fadd (fadd x0 x2) (fadd x1 x3)).
  Proof using Hw K KT.
    intros H. apply (sm_eq [x0; x2; x1; x3]); [cbn; lia|cbn; destruct (nz x0), (nz x1), (nz x2), (nz x3); reflexivity|]. apply sm4. eapply fits_eq; [| |exact H]; [cbn; tauto|cbn; lia].
  Qed.
  Lemma sum_yps x0 x1 x2 x3 x4 x5 x6 x7 : fits [x0; x1; x2; x3; x4; x5; x6; x7] ->
    sm [x0; x1; x2; x3; x4; x5; x6; x7] (fadd (fadd (fadd x0 x4) (fadd x2 x6)) (fadd (fadd x1 x5) (fadd x3 x7))).
  Proof using Hw K KT.
    intros H. apply (sm_eq [x0; x4; x2; x6; x1; x5; x3; x7]); [cbn; lia|cbn; destruct (nz x0), (nz x1), (nz x2), (nz x3), (nz x4), (nz x5), (nz x6), (nz x7); reflexivity|]. apply sm8. eapply fits_eq; [| |exact H]; [cbn; tauto|cbn; lia].
  Qed.
End Sum.

Lemma exact_fits {w} (Hw : fp_width w) (xs : list (word w)) : sums_exact xs = true -> exists k, 0 <= k /\ mant_bits w + 1 + k <= top_exp w /\ fits k xs.
Proof.
  unfold sums_exact. change (fold_right (fun (x : word w) (s : Z) => Z.abs (fvalue x) + s) 0 xs) with (zabs xs). set (k := Z.max 0 (Z.log2 (zabs xs) - frac_bits w)). intros S.
  apply andb_true_iff in S as (S & S3). apply andb_true_iff in S as (S1 & S2). rewrite forallb_forall in S1, S2. apply Z.leb_le in S3.
  assert (PM : frac_bits w = mant_bits w /\ 0 < frac_bits w /\ expo_bits w = exp_bits w) by (destruct Hw as [->| ->]; vm_compute; repeat split; congruence). destruct PM as (PM & PN & PE).
  assert (K : 0 <= k) by (unfold k; lia). exists k. split; [exact K|]. unfold top_exp. rewrite <- PE. split; [lia|]. split.
  - apply Forall_forall. intros x Hx. split; [now apply S1|]. apply Z.mod_divide; [pose proof (Z.pow_pos_nonneg 2 k); lia|]. apply Z.eqb_eq. now apply S2.
  - rewrite <- PM. pose proof (zabs_bound xs). destruct (Z.eq_dec (zabs xs) 0) as [E|E]; [rewrite E; apply Z.pow_pos_nonneg; lia|].
    destruct (Z.log2_spec (zabs xs) ltac:(lia)) as (_ & L). apply Z.lt_le_trans with (1 := L). apply Z.pow_le_mono_r; unfold k; lia.
Qed.

Section FBuild.
  Context (b : build) (e : etype) (F : is_integer e = false).
  Let Hw : fp_width (esize e) := float_fp e F.
  Let W := b_native b e.
  Context (k : Z) (K : 0 <= k) (KT : mant_bits (esize e) + 1 + k <= top_exp (esize e)).
  Lemma leaf_sum xs : W (length xs) = true -> fits k xs -> exists v, leaf_freduce b e RSum xs = Some v /\ sm xs v.
  Proof using F K KT.
    intros N H. assert (FF : forall x, In x xs -> is_Finite x = true) by (intros x; exact (fits_fin k xs x H)). unfold leaf_freduce. apply by_width_ind; auto; intros L1.
    - destruct xs as [|x [|y xs]]; try discriminate L1. exists x. split; [reflexivity|]. apply sm1, FF. now left.
    - eexists. split; [reflexivity|]. clear N. destruct e; try discriminate F.
      + destruct xs as [|x0 [|x1 [|x2 [|x3 [|x4 xs]]]]]; try discriminate L1.
        change (sm [x0; x1; x2; x3] (h_add_ps fadd (pack [x0; x1; x2; x3]))). rewrite haps_pack. exact (sum_haps Hw k K KT x0 x1 x2 x3 H).
      + destruct xs as [|x0 [|x1 [|x2 xs]]]; try discriminate L1.
        change (sm [x0; x1] (h_add_pd fadd (pack [x0; x1]))). rewrite hapd_pack. exact (sm2 Hw k K KT x0 x1 H).
    - eexists. split; [reflexivity|]. clear N. destruct e; try discriminate F.
      + destruct xs as [|x0 [|x1 [|x2 [|x3 [|x4 [|x5 [|x6 [|x7 [|x8 xs]]]]]]]]]; try discriminate L1.
        change (sm [x0; x1; x2; x3; x4; x5; x6; x7] (y_reduce_ps fadd (ypack [x0; x1; x2; x3; x4; x5; x6; x7]))). rewrite y_reduce_ps_order. exact (sum_yps Hw k K KT x0 x1 x2 x3 x4 x5 x6 x7 H).
      + destruct xs as [|x0 [|x1 [|x2 [|x3 [|x4 xs]]]]]; try discriminate L1.
        change (sm [x0; x1; x2; x3] (y_reduce_pd fadd (ypack [x0; x1; x2; x3]))). rewrite y_reduce_pd_order. exact (sum_ypd Hw k K KT x0 x1 x2 x3 H).
  Qed.
  Lemma adds_defined (xs ys : list (elt e)) : (forall x, In x xs -> is_Finite x = true) -> all_defined (map2 (f_arith OAdd) xs ys) = Some (map2 fadd xs ys).
  Proof using.
    revert ys. induction xs as [|x xs IH]; intros [|y ys] H; cbn [map2 all_defined]; auto. assert (N : is_NaN x = false). { specialize (H x ltac:(now left)). unfold is_Finite, is_NaN in *. now destruct (all_ones_exponent x). }
    cbn [f_arith]. unfold one_nan. rewrite N. cbn [andb]. rewrite IH by (intros; apply H; now right). reflexivity.
  Qed.
  Lemma freduce_sum : forall fuel n t, wf W n t -> (n <= fuel)%nat -> fits k (to_list t) -> exists v, freduce_f b e RSum fuel t = Some v /\ sm (to_list t) v.
  Proof using F K KT.
    pose proof (Ww b e) as WW.
    induction fuel as [|fuel IH]; intros n t Wt HF H; pose proof (wf_size W WW _ _ Wt) as (S1 & S2 & S3); [lia|].
    destruct t as [xs|d0 d1]; cbn [freduce_f to_list] in *.
    - inversion Wt as [n' xs' Nn L|]; subst n' xs' n. now apply leaf_sum.
    - inversion Wt as [|n' l r E W0 W1]; subst n' l r.
      pose proof (not_native_ge2 W WW n S3 E) as H2. destruct (right_left n H2) as [R1 R2].
      pose proof (wf_len W WW _ _ W0) as L0. pose proof (wf_len W WW _ _ W1) as L1.
      assert (Z0 := wf_sz W WW _ _ W0). assert (Z1 := wf_sz W WW _ _ W1). unfold elt in Z0, Z1 |- *. rewrite Z0, Z1.
      destruct (fits_app k _ _ H) as (H0 & H1).
      destruct (Nat.eqb_spec (left_size n) (right_size n)) as [EH|EH].
      + rewrite <- EH in W1. destruct (op2o_sim W WW (leaf_farith b e OAdd) (f_arith OAdd) (leaf_farith_ok b e F OAdd) _ d0 d1 _ W0 W1 (adds_defined (to_list d0) (to_list d1) ltac:(intros x; exact (fits_fin k _ x H0)))) as (z & OZ & Wz & Fz).
        cbn [red_arith]. unfold elt in OZ. rewrite OZ. cbn [obind]. assert (LE : length (to_list d0) = length (to_list d1)) by congruence.
        destruct (zip_fits Hw k K KT _ _ LE H) as (Q1 & Q2). unfold elt in Fz. rewrite <- Fz in Q1, Q2. destruct (IH _ z Wz ltac:(lia) Q1) as (v & V1 & V2). exists v. split; [exact V1|]. now apply Q2.
      + destruct (IH _ d0 W0 ltac:(lia) H0) as (x & X0 & X). destruct (IH _ d1 W1 ltac:(lia) H1) as (y & Y0 & Y). unfold elt in X0, Y0. rewrite X0, Y0. cbn [obind red_arith s_farith].
        eexists. split; [reflexivity|]. exact (sm_app Hw k K KT _ _ x y H X Y).
  Qed.
  Lemma sum_ok n t v : wf W n t -> fits k (to_list t) -> reduce_spec fadd (to_list t) = Some v -> b_freduce b e RSum t = Some v.
  Proof using F K KT.
    intros Wt H D. destruct (freduce_sum (size t) n t Wt ltac:(apply Nat.eq_le_incl; symmetry; exact (wf_sz W (Ww b e) _ _ Wt)) H) as (r & R1 & R2). unfold b_freduce. unfold elt in R1 |- *. rewrite R1. f_equal.
    apply (sm_unique Hw (to_list t)); [exact R2|]. exact (loop_sm Hw k K KT _ _ H D).
  Qed.
End FBuild.
