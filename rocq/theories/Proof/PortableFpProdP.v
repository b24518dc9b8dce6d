(** Floating-point programs in every build: product() of integers whose products are exact. *)
From Coq Require Import ZArith List Bool Lia.
From Verif.Spec Require Import Seq FloatSpec RoundSpec VectorSpec NativeSpec PortableSpec PortableFpSpec.
From Verif.Model Require Import SplitSize Word Fp FpArith SseReg SseMove SseInt SseBuild SseArith SimdArray SimdArrayOps
  AvxReg AvxMove AvxBuild AvxShuffle AvxMask AvxArith Program Portable PortableFp.
From Verif.Proof Require Import WordP FpP FpArithP FpIntP MathP SeqP SimdArrayP SimdArrayOpsP SseArithP SseFloatRedP SseVecMain AvxArithP PortableP PortableOpsP PortableFpP.
Import ListNotations.
Local Open Scope Z_scope.

Section Product.
  Context {w : nat} (Hw : fp_width w).
  Notation U := (one_units w).
  Notation B := (2 ^ (mant_bits w + 1)).
  Definition mag (x : word w) : Z := fabs_value x / U.
  Definition zm (xs : list (word w)) : Z := fold_right (fun x s => mag x * s) 1 xs.
  Definition zb (xs : list (word w)) : Z := fold_right (fun x s => Z.max 1 (mag x) * s) 1 xs.
  Definition zs (xs : list (word w)) : bool := fold_right (fun x s => xorb (negative x) s) false xs.
  Definition whole (x : word w) : Prop := is_Finite x = true /\ fabs_value x = mag x * U.
  Definition pfits (xs : list (word w)) : Prop := Forall whole xs /\ zb xs <= B.
  Definition pm (xs : list (word w)) (r : word w) : Prop := is_Finite r = true /\ fabs_value r = zm xs * U /\ negative r = zs xs.

  Lemma Upos : 0 < U. Proof using Hw. exact (one_units_pos Hw). Qed.
  Lemma mag_nonneg x : 0 <= mag x.
  Proof using Hw. apply Z.div_pos; [apply (fabs_nonneg Hw)|exact Upos]. Qed.
  Lemma mag_of x v : fabs_value x = v * U -> mag x = v.
  Proof using Hw. intros H. unfold mag. rewrite H. apply Z.div_mul. pose proof Upos. lia. Qed.
  Lemma zm_app xs ys : zm (xs ++ ys) = zm xs * zm ys.
  Proof using. induction xs as [|x xs IH]; cbn [app zm fold_right]; [symmetry; apply Z.mul_1_l|]. fold (zm (xs ++ ys)) (zm xs). rewrite IH. ring. Qed.
  Lemma zb_app xs ys : zb (xs ++ ys) = zb xs * zb ys.
  Proof using. induction xs as [|x xs IH]; cbn [app zb fold_right]; [symmetry; apply Z.mul_1_l|]. fold (zb (xs ++ ys)) (zb xs). rewrite IH. ring. Qed.
  Lemma zs_app xs ys : zs (xs ++ ys) = xorb (zs xs) (zs ys).
  Proof using. induction xs as [|x xs IH]; cbn [app zs fold_right]; [symmetry; apply xorb_false_l|]. fold (zs (xs ++ ys)) (zs xs). rewrite IH. now rewrite xorb_assoc. Qed.
  Lemma zb_pos xs : 1 <= zb xs.
  Proof using. induction xs as [|x xs IH]; cbn [zb fold_right]; [lia|]. fold (zb xs). nia. Qed.
  Lemma zm_bound xs : 0 <= zm xs <= zb xs.
  Proof using Hw. induction xs as [|x xs IH]; cbn [zm zb fold_right]; [lia|]. fold (zm xs) (zb xs). pose proof (mag_nonneg x). pose proof (zb_pos xs). nia. Qed.
  Lemma pfits_app xs ys : pfits (xs ++ ys) -> pfits xs /\ pfits ys.
  Proof using.
    intros (G & H). apply Forall_app in G as (G1 & G2). rewrite zb_app in H. pose proof (zb_pos xs). pose proof (zb_pos ys). split; (split; [assumption|nia]).
  Qed.
  Lemma repr_int v : 0 <= v <= B -> repr (w := w) (v * U).
  Proof using Hw.
    intros H. assert (X : U = 2 ^ unit_exp w /\ 0 <= unit_exp w /\ mant_bits w + 1 + unit_exp w + 1 <= top_exp w /\ 0 <= mant_bits w) by (destruct Hw as [->| ->]; vm_compute; repeat split; congruence). destruct X as (-> & X1 & X2 & X3).
    destruct (Z.eq_dec v B) as [->|N]; [|apply (repr_pow Hw); lia]. replace (B * 2 ^ unit_exp w) with (2 ^ mant_bits w * 2 ^ (unit_exp w + 1)).
    - apply (repr_pow Hw); [|lia|lia]. split; [apply Z.pow_nonneg; lia|]. apply Z.pow_lt_mono_r; lia.
    - rewrite <- !Z.pow_add_r by lia. f_equal. lia.
  Qed.
  Lemma mul_ok (x y : word w) a b : is_Finite x = true -> is_Finite y = true -> fabs_value x = a * U -> fabs_value y = b * U -> 0 <= a * b <= B ->
    is_Finite (fmul x y) = true /\ fabs_value (fmul x y) = a * b * U /\ negative (fmul x y) = xorb (negative x) (negative y).
  Proof using Hw. intros Fx Fy Ex Ey H. apply (fmul_repr Hw); auto; [now apply repr_int|]. rewrite Ex, Ey. ring. Qed.
  Lemma pm_unique xs r r' : pm xs r -> pm xs r' -> r = r'.
  Proof using Hw. intros (F & V & N) (F' & V' & N'). apply (same_value Hw); congruence. Qed.
  Lemma pm_app xs ys x y : pfits (xs ++ ys) -> pm xs x -> pm ys y -> pm (xs ++ ys) (fmul x y).
  Proof using Hw.
    intros (_ & H) (Fx & Vx & Nx) (Fy & Vy & Ny). pose proof (zm_bound (xs ++ ys)) as Z. unfold pm. rewrite zm_app, zs_app in *. rewrite <- Nx, <- Ny. apply mul_ok; auto. lia.
  Qed.
  Lemma pm1 x : whole x -> pm [x] x.
  Proof using. intros (F & V). split; [exact F|]. cbn. rewrite Z.mul_1_r, xorb_false_r. auto. Qed.
  Lemma pm_eq xs ys r : zm xs = zm ys -> zs xs = zs ys -> pm xs r -> pm ys r.
  Proof using. intros E1 E2 (F & V & N). split; [exact F|]. now rewrite <- E1, <- E2. Qed.
  Lemma pfits_eq xs ys : (forall x, In x ys -> In x xs) -> zb xs = zb ys -> pfits xs -> pfits ys.
  Proof using. intros I E (G & H). rewrite Forall_forall in G. split; [apply Forall_forall; auto|now rewrite <- E]. Qed.
  Lemma pfits_in xs x : pfits xs -> In x xs -> whole x.
  Proof using. intros (G & _) I. rewrite Forall_forall in G. auto. Qed.
  Lemma loop_pm xs v : pfits xs -> Seq.reduce_spec fmul xs = Some v -> pm xs v.
  Proof using Hw.
    destruct xs as [|x xs]; cbn [reduce_spec]; [discriminate|]. intros H [= <-]. assert (G : forall ys pre a, pfits (pre ++ ys) -> pm pre a -> pm (pre ++ ys) (fold_left fmul ys a)).
    { induction ys as [|y ys IH]; intros pre a Hf S; cbn [fold_left]; [now rewrite app_nil_r|]. replace (pre ++ y :: ys) with ((pre ++ [y]) ++ ys) in * by now rewrite <- app_assoc.
      apply IH; [exact Hf|]. apply pm_app; [exact (proj1 (pfits_app _ _ Hf))|exact S|]. apply pm1, (pfits_in _ _ Hf). apply in_or_app. left. apply in_or_app. right. now left. }
    apply (G xs [x] x); [exact H|]. apply pm1, (pfits_in _ _ H). now left.
  Qed.
  Lemma zip_pfits xs ys : length xs = length ys -> pfits (xs ++ ys) -> pfits (map2 fmul xs ys) /\ (forall r, pm (map2 fmul xs ys) r -> pm (xs ++ ys) r).
  Proof using Hw.
    intros L H. destruct (pfits_app _ _ H) as ((G1 & _) & (G2 & _)). destruct H as (_ & H). rewrite zb_app in H.
    assert (X : Forall whole (map2 fmul xs ys) /\ zb (map2 fmul xs ys) <= zb xs * zb ys /\ zm (map2 fmul xs ys) = zm xs * zm ys /\ zs (map2 fmul xs ys) = xorb (zs xs) (zs ys)).
    { revert ys L G2 H. induction G1 as [|x xs Gx G1 IH]; intros [|y ys] L G2 H; try discriminate L; [cbn; repeat split; auto; lia|]. inversion G2 as [|y' ys' Gy G2']; subst y' ys'. cbn [zb fold_right] in H. fold (zb xs) (zb ys) in H.
      pose proof (zb_pos xs). pose proof (zb_pos ys). pose proof (mag_nonneg x). pose proof (mag_nonneg y). set (a := Z.max 1 (mag x)) in *. set (c := Z.max 1 (mag y)) in *.
      assert (P : 1 <= a /\ mag x <= a /\ 1 <= c /\ mag y <= c) by (unfold a, c; lia).
      assert (Q1 : zb xs * zb ys <= B). { assert (zb xs * zb ys * 1 <= zb xs * zb ys * (a * c)) by (apply Z.mul_le_mono_nonneg_l; nia). nia. }
      assert (Q2 : mag x * mag y <= a * c) by (apply Z.mul_le_mono_nonneg; lia).
      assert (Q3 : a * c <= B). { assert (a * c * 1 <= a * c * (zb xs * zb ys)) by (apply Z.mul_le_mono_nonneg_l; nia). nia. }
      destruct (IH ys ltac:(now injection L) G2' Q1) as (A1 & A2 & A3 & A4).
      destruct Gx as (Fx & Vx). destruct Gy as (Fy & Vy). destruct (mul_ok x y _ _ Fx Fy Vx Vy ltac:(nia)) as (C1 & C2 & C3). pose proof (mag_of _ _ C2) as C4.
      cbn [map2]. split; [constructor; [split; [exact C1|now rewrite C4]|exact A1]|]. cbn [zb zm zs fold_right].
      fold (zb (map2 fmul xs ys)) (zb xs) (zb ys) (zm (map2 fmul xs ys)) (zm xs) (zm ys) (zs (map2 fmul xs ys)) (zs xs) (zs ys). rewrite C3, C4, A3, A4. repeat split.
      - fold a c. assert (Z.max 1 (mag x * mag y) <= a * c) by nia. pose proof (zb_pos (map2 fmul xs ys)). transitivity (a * c * (zb xs * zb ys)); [apply Z.mul_le_mono_nonneg; lia|apply Z.eq_le_incl; ring].
      - ring.
      - destruct (negative x), (negative y), (zs xs), (zs ys); reflexivity. }
    destruct X as (X1 & X2 & X3 & X4). split; [split; [exact X1|lia]|]. intros r. apply pm_eq; [now rewrite zm_app|now rewrite zs_app].
  Qed.
  Lemma pm2 x y : pfits [x; y] -> pm [x; y] (fmul x y).
  Proof using Hw. intros H. apply (pm_app [x] [y]); [exact H|apply pm1, (pfits_in _ _ H); now left|apply pm1, (pfits_in _ _ H); right; now left]. Qed.
  Lemma pm4 x y z u : pfits [x; y; z; u] -> pm [x; y; z; u] (fmul (fmul x y) (fmul z u)).
  Proof using Hw. intros H. destruct (pfits_app [x; y] [z; u] H). apply (pm_app [x; y] [z; u]); [exact H|now apply pm2|now apply pm2]. Qed.
  Lemma pm8 x y z u x' y' z' u' : pfits [x; y; z; u; x'; y'; z'; u'] -> pm [x; y; z; u; x'; y'; z'; u'] (fmul (fmul (fmul x y) (fmul z u)) (fmul (fmul x' y') (fmul z' u'))).
  Proof using Hw. intros H. destruct (pfits_app [x; y; z; u] [x'; y'; z'; u'] H). apply (pm_app [x; y; z; u] [x'; y'; z'; u']); [exact H|now apply pm4|now apply pm4]. Qed.
  Ltac signs := cbn [zs fold_right]; repeat match goal with |- context [negative ?x] => destruct (negative x) end; reflexivity.
  Lemma prod_haps x0 x1 x2 x3 : pfits [x0; x1; x2; x3] -> pm [x0; x1; x2; x3] (fmul (fmul x0 x3) (fmul x1 x2)).
  Proof using Hw.
    intros H. apply (pm_eq [x0; x3; x1; x2]); [cbn [zm fold_right]; ring|signs|]. apply pm4. eapply pfits_eq; [| |exact H]; [cbn; tauto|cbn [zb fold_right]; ring].
  Qed.
  Lemma prod_ypd x0 x1 x2 x3 : pfits [x0; x1; x2; x3] -> pm [x0; x1; x2; x3] (fmul (fmul x0 x2) (fmul x1 x3)).
  Proof using Hw.
    intros H. apply (pm_eq [x0; x2; x1; x3]); [cbn [zm fold_right]; ring|signs|]. apply pm4. eapply pfits_eq; [| |exact H]; [cbn; tauto|cbn [zb fold_right]; ring].
  Qed.
  Lemma prod_yps x0 x1 x2 x3 x4 x5 x6 x7 : pfits [x0; x1; x2; x3; x4; x5; x6; x7] ->
    pm [x0; x1; x2; x3; x4; x5; x6; x7] (fmul (fmul (fmul x0 x4) (fmul x2 x6)) (fmul (fmul x1 x5) (fmul x3 x7))).
  Proof using Hw.
    intros H. apply (pm_eq [x0; x4; x2; x6; x1; x5; x3; x7]); [cbn [zm fold_right]; ring|signs|]. apply pm8. eapply pfits_eq; [| |exact H]; [cbn; tauto|cbn [zb fold_right]; ring].
  Qed.
  Lemma products_pfits (xs : list (word w)) : products_exact xs = true -> pfits xs.
  Proof using Hw.
    unfold products_exact. intros S. apply andb_true_iff in S as (S & S3). apply andb_true_iff in S as (S1 & S2). rewrite forallb_forall in S1, S2. apply Z.leb_le in S3.
    assert (PM : frac_bits w = mant_bits w /\ fone w = U) by (destruct Hw as [->| ->]; vm_compute; repeat split; congruence). destruct PM as (PM & PU). rewrite PM, PU in *.
    assert (E : forall x, Z.abs (fvalue x) = fabs_value x) by (intros x; now rewrite (fabs_abs Hw)).
    split.
    - apply Forall_forall. intros x Hx. split; [now apply S1|]. specialize (S2 x Hx). apply Z.eqb_eq in S2. pose proof Upos. unfold mag. rewrite <- E.
      assert (D : (U | Z.abs (fvalue x))) by (apply Z.divide_abs_r, Z.mod_divide; [lia|exact S2]). destruct D as (q & Q). rewrite Q at 2. rewrite Z.div_mul by lia. exact Q.
    - etransitivity; [|exact S3]. apply Z.eq_le_incl. clear S1 S2 S3. induction xs as [|x xs IH]; [reflexivity|]. cbn [zb fold_right]. fold (zb xs). rewrite IH, E. reflexivity.
  Qed.
  (** the value *)
  Lemma pm_value xs r : pm xs r -> fvalue r = (if zs xs then -1 else 1) * zm xs * U.
  Proof using Hw. intros (_ & V & N). rewrite (fvalue_abs Hw), V, N. destruct (zs xs); ring. Qed.
  Lemma int_product xs : Forall whole xs -> fold_right (fun x p => fvalue x / U * p) 1 xs = (if zs xs then -1 else 1) * zm xs.
  Proof using Hw.
    induction 1 as [|x xs (F & V) H IH]; [reflexivity|]. cbn [zm zs fold_right]. fold (zm xs) (zs xs). rewrite IH, (fvalue_abs Hw), V. pose proof Upos.
    destruct (negative x), (zs xs); cbn [xorb]; rewrite ?Z.mul_1_l, ?Z.mul_assoc, Z.div_mul by lia; ring.
  Qed.
End Product.

Section FBuild.
  Context (b : build) (e : etype) (F : is_integer e = false).
  Let Hw : fp_width (esize e) := float_fp e F.
  Let W := b_native b e.
  Lemma leaf_product xs : W (length xs) = true -> pfits xs -> exists v, leaf_freduce b e RProduct xs = Some v /\ pm xs v.
  Proof using F.
    intros N H. unfold leaf_freduce. apply by_width_ind; auto; intros L1.
    - destruct xs as [|x [|y xs]]; try discriminate L1. exists x. split; [reflexivity|]. apply pm1, (pfits_in _ _ H). now left.
    - eexists. split; [reflexivity|]. clear N. destruct e; try discriminate F.
      + destruct xs as [|x0 [|x1 [|x2 [|x3 [|x4 xs]]]]]; try discriminate L1.
        change (pm [x0; x1; x2; x3] (h_add_ps fmul (pack [x0; x1; x2; x3]))). rewrite haps_pack. exact (prod_haps Hw x0 x1 x2 x3 H).
      + destruct xs as [|x0 [|x1 [|x2 xs]]]; try discriminate L1.
        change (pm [x0; x1] (h_add_pd fmul (pack [x0; x1]))). rewrite hapd_pack. exact (pm2 Hw x0 x1 H).
    - eexists. split; [reflexivity|]. clear N. destruct e; try discriminate F.
      + destruct xs as [|x0 [|x1 [|x2 [|x3 [|x4 [|x5 [|x6 [|x7 [|x8 xs]]]]]]]]]; try discriminate L1.
        change (pm [x0; x1; x2; x3; x4; x5; x6; x7] (y_reduce_ps fmul (ypack [x0; x1; x2; x3; x4; x5; x6; x7]))). rewrite y_reduce_ps_order. exact (prod_yps Hw x0 x1 x2 x3 x4 x5 x6 x7 H).
      + destruct xs as [|x0 [|x1 [|x2 [|x3 [|x4 xs]]]]]; try discriminate L1.
        change (pm [x0; x1; x2; x3] (y_reduce_pd fmul (ypack [x0; x1; x2; x3]))). rewrite y_reduce_pd_order. exact (prod_ypd Hw x0 x1 x2 x3 H).
  Qed.
  Lemma muls_defined (xs ys : list (elt e)) : (forall x, In x xs -> is_Finite x = true) -> all_defined (map2 (f_arith OMul) xs ys) = Some (map2 fmul xs ys).
  Proof using.
    revert ys. induction xs as [|x xs IH]; intros [|y ys] H; cbn [map2 all_defined]; auto. assert (N : is_NaN x = false). { specialize (H x ltac:(now left)). unfold is_Finite, is_NaN in *. now destruct (all_ones_exponent x). }
    cbn [f_arith]. unfold one_nan. rewrite N. cbn [andb]. rewrite IH by (intros; apply H; now right). reflexivity.
  Qed.
  Lemma freduce_product : forall fuel n t, wf W n t -> (n <= fuel)%nat -> pfits (to_list t) -> exists v, freduce_f b e RProduct fuel t = Some v /\ pm (to_list t) v.
  Proof using F.
    pose proof (Ww b e) as WW.
    induction fuel as [|fuel IH]; intros n t Wt HF H; pose proof (wf_size W WW _ _ Wt) as (S1 & S2 & S3); [lia|].
    destruct t as [xs|d0 d1]; cbn [freduce_f to_list] in *.
    - inversion Wt as [n' xs' Nn L|]; subst n' xs' n. now apply leaf_product.
    - inversion Wt as [|n' l r E W0 W1]; subst n' l r.
      pose proof (not_native_ge2 W WW n S3 E) as H2. destruct (right_left n H2) as [R1 R2].
      pose proof (wf_len W WW _ _ W0) as L0. pose proof (wf_len W WW _ _ W1) as L1.
      assert (Z0 := wf_sz W WW _ _ W0). assert (Z1 := wf_sz W WW _ _ W1). unfold elt in Z0, Z1 |- *. rewrite Z0, Z1.
      destruct (pfits_app _ _ H) as (H0 & H1).
      destruct (Nat.eqb_spec (left_size n) (right_size n)) as [EH|EH].
      + rewrite <- EH in W1. destruct (op2o_sim W WW (leaf_farith b e OMul) (f_arith OMul) (leaf_farith_ok b e F OMul) _ d0 d1 _ W0 W1 (muls_defined (to_list d0) (to_list d1) ltac:(intros x Hx; exact (proj1 (pfits_in _ x H0 Hx))))) as (z & OZ & Wz & Fz).
        cbn [red_arith]. unfold elt in OZ. rewrite OZ. cbn [obind]. assert (LE : length (to_list d0) = length (to_list d1)) by congruence.
        destruct (zip_pfits Hw _ _ LE H) as (Q1 & Q2). unfold elt in Fz. rewrite <- Fz in Q1, Q2. destruct (IH _ z Wz ltac:(lia) Q1) as (v & V1 & V2). exists v. split; [exact V1|]. now apply Q2.
      + destruct (IH _ d0 W0 ltac:(lia) H0) as (x & X0 & X). destruct (IH _ d1 W1 ltac:(lia) H1) as (y & Y0 & Y). unfold elt in X0, Y0. rewrite X0, Y0. cbn [obind red_arith s_farith].
        eexists. split; [reflexivity|]. exact (pm_app Hw _ _ x y H X Y).
  Qed.
  Lemma product_ok n t v : wf W n t -> pfits (to_list t) -> Seq.reduce_spec fmul (to_list t) = Some v -> b_freduce b e RProduct t = Some v.
  Proof using F.
    intros Wt H D. destruct (freduce_product (size t) n t Wt ltac:(apply Nat.eq_le_incl; symmetry; exact (wf_sz W (Ww b e) _ _ Wt)) H) as (r & R1 & R2). unfold b_freduce. unfold elt in R1 |- *. rewrite R1. f_equal.
    apply (pm_unique Hw (to_list t)); [exact R2|]. exact (loop_pm Hw _ _ H D).
  Qed.
End FBuild.
