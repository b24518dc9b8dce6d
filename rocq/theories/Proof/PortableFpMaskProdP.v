(** Floating-point programs in every build: product(mask) of integers whose products are exact. *)
From Coq Require Import ZArith List Bool Lia.
From Verif.Spec Require Import Seq FloatSpec MaskSpec VectorSpec NativeSpec PortableSpec PortableFpSpec.
From Verif.Model Require Import SplitSize Word Fp FpArith SseReg SseMove SseInt SseBuild SseArith SseMask SseNative SimdArray SimdArrayOps
  AvxReg AvxMove AvxBuild AvxShuffle AvxMask AvxArith ScalarVec MaskedDiv Program Portable PortableFp.
From Verif.Proof Require Import WordP FpP FpArithP FpIntP SeqP SimdArrayP SimdArrayOpsP ScalarVecP SseIntP SseArithP SseBuildP SseNativeP AvxArithP AvxNativeP PortableP PortableOpsP PortableFpP PortableFpProdP.
Import ListNotations.
Local Open Scope Z_scope.

Section Product.
  Context {w : nat} (Hw : fp_width w).
  Notation U := (one_units w).
  Notation one := (of_int w 1).
  Lemma one_ok : is_Finite one = true /\ fabs_value one = 1 * U /\ negative one = false.
  Proof using Hw. destruct Hw as [->| ->]; vm_compute; repeat split. Qed.
  Lemma pm_nil : pm [] one.
  Proof using Hw. exact one_ok. Qed.
  Lemma one_whole : whole one.
  Proof using Hw. destruct one_ok as (F & V & _). split; [exact F|]. now rewrite (mag_of Hw _ _ V). Qed.
  Lemma one_mag : mag one = 1.
  Proof using Hw. apply (mag_of Hw). apply one_ok. Qed.
  (** ones to which the selected entries are assigned *)
  Definition ofilled (m : list bool) (xs : list (word w)) : list (word w) := masked_update_spec m xs (repeat one (length xs)).
  Lemma ofilled_len m xs : length m = length xs -> length (ofilled m xs) = length xs.
  Proof using. intros L. unfold ofilled, masked_update_spec. rewrite map3_length; rewrite ?repeat_length; auto; congruence. Qed.
  Lemma ofilled_ok m xs : length m = length xs -> pfits (select_spec m xs) ->
    pfits (ofilled m xs) /\ zm (ofilled m xs) = zm (select_spec m xs) /\ zs (ofilled m xs) = zs (select_spec m xs).
  Proof using Hw.
    intros L (G & H). assert (X : Forall whole (ofilled m xs) /\ zb (ofilled m xs) = zb (select_spec m xs) /\ zm (ofilled m xs) = zm (select_spec m xs) /\ zs (ofilled m xs) = zs (select_spec m xs)).
    { clear H. revert xs L G. induction m as [|c m IH]; intros [|x xs] L G; try discriminate L; [cbn; auto|]. cbn [select_spec] in G |- *.
      change (ofilled (c :: m) (x :: xs)) with ((if c then x else one) :: ofilled m xs). apply Forall_app in G as (G0 & G).
      destruct (IH xs ltac:(now injection L) G) as (A1 & A2 & A3 & A4). rewrite zb_app, zm_app, zs_app, <- A2, <- A3, <- A4.
      destruct c; cbn [zb zm zs fold_right]; fold (zb (ofilled m xs)) (zm (ofilled m xs)) (zs (ofilled m xs)).
      - split; [constructor; [now inversion G0|exact A1]|]. rewrite xorb_false_r. repeat split; ring.
      - split; [constructor; [exact one_whole|exact A1]|]. rewrite one_mag. destruct one_ok as (_ & _ & ->). rewrite Z.max_id. repeat split. }
    destruct X as (X1 & X2 & X3 & X4). split; [split; [exact X1|]|auto]. now rewrite X2.
  Qed.
  Lemma fold_pm xs : pfits xs -> pm xs (fold_left fmul xs one).
  Proof using Hw.
    intros H. assert (G : forall (ys pre : list (word w)) a, pfits (pre ++ ys) -> pm pre a -> pm (pre ++ ys) (fold_left fmul ys a)).
    { induction ys as [|y ys IH]; intros pre a Hf S; cbn [fold_left]; [now rewrite app_nil_r|]. replace (pre ++ y :: ys) with ((pre ++ [y]) ++ ys) in * by now rewrite <- app_assoc.
      apply IH; [exact Hf|]. apply (pm_app Hw); [exact (proj1 (pfits_app _ _ Hf))|exact S|]. apply pm1, (pfits_in _ _ Hf). apply in_or_app. left. apply in_or_app. right. now left. }
    exact (G xs [] one H pm_nil).
  Qed.
End Product.

Section FBuild.
  Context (b : build) (e : etype) (F : is_integer e = false).
  Let Hw : fp_width (esize e) := float_fp e F.
  Let W := b_native b e.
  Lemma leaf_pmask xs m : W (length xs) = true -> length m = length xs -> pfits (select_spec m xs) -> pm (select_spec m xs) (leaf_fproduct_mask b e xs m).
  Proof using F.
    intros N L G. destruct (ofilled_ok Hw m xs L G) as (G1 & G2 & G3). pose proof (ofilled_len m xs L) as FL.
    assert (N' : W (length (ofilled m xs)) = true) by (rewrite FL; exact N).
    destruct (leaf_product b e F (ofilled m xs) N' G1) as (v & V1 & V2).
    assert (Q : (exists c x, m = [c] /\ xs = [x]) \/ leaf_fproduct_mask b e xs m = v).
    { revert V1. unfold leaf_freduce, leaf_fproduct_mask, by_width. unfold elt in FL |- *. rewrite FL.
      destruct (Nat.eqb_spec (length xs) 1) as [E1|E1].
      - intros _. left. destruct xs as [|x [|? ?]]; try discriminate E1. destruct m as [|c [|? ?]]; try discriminate L. eauto.
      - destruct (Nat.eqb_spec (length xs) (16 / esize e)) as [E2|E2].
        + intros V. right. injection V as <-. f_equal. unfold v_fone. apply assign_pad; auto.
        + destruct (leaf_width b e _ N) as [E|[(_ & E)|(_ & _ & E & a & g & BI)]]; try contradiction. rewrite BI. intros V. right. injection V as <-. f_equal. unfold y_fone. apply yassign_pad; auto. }
    destruct Q as [(c & x & -> & ->)|Q].
    - assert (LE : leaf_fproduct_mask b e [x] [c] = if c then x else of_int _ 1) by (destruct c; reflexivity). rewrite LE. destruct c; cbn [select_spec app] in *; [|exact (pm_nil Hw)].
      apply pm1, (pfits_in _ _ G). now left.
    - rewrite Q. exact (pm_eq _ _ _ G2 G3 V2).
  Qed.
  Lemma mask_product (MK : native_masks_ok W (b_masks b e)) n t : wf W n t -> forall q, wf W n q -> pfits (select_spec (to_list q) (to_list t)) ->
    exists r, reduce_masked (b_masks b e) (leaf_fproduct_mask b e) fmul t q = Some r /\ pm (select_spec (to_list q) (to_list t)) r.
  Proof using F.
    pose proof (Ww b e) as WW.
    induction 1 as [n xs N L|n l r E W0 IH0 W1 IH1]; intros q Wq G; inversion Wq as [n' qs N' L'|n' q0 q1 E' Q0 Q1]; subst; try congruence.
    - cbn [reduce_masked to_list] in *. eexists. split; [reflexivity|]. apply leaf_pmask; auto.
    - cbn [reduce_masked to_list] in *. pose proof (wf_len W WW _ _ W0) as L0. pose proof (wf_len W WW _ _ Q0) as L1.
      assert (LE : length (to_list q0) = length (to_list l)) by congruence. rewrite (select_app _ _ _ _ _ LE) in G |- *. destruct (pfits_app _ _ G) as (G0 & G1).
      pose proof (is_empty_ok W (b_masks b e) MK _ q0 Q0) as M0. pose proof (is_empty_ok W (b_masks b e) MK _ q1 Q1) as M1.
      destruct (is_empty (b_masks b e) q0) eqn:B0; [|destruct (is_empty (b_masks b e) q1) eqn:B1].
      + rewrite (select_none _ (to_list l) (proj1 M0 eq_refl)) in *. now apply IH1.
      + rewrite (select_none _ (to_list r) (proj1 M1 eq_refl)) in *. rewrite app_nil_r in *. now apply IH0.
      + destruct (IH0 q0 Q0 G0) as (x & X1 & X2). destruct (IH1 q1 Q1 G1) as (y & Y1 & Y2). unfold elt in X1, Y1 |- *. rewrite X1, Y1. cbn [obind]. eexists. split; [reflexivity|].
        exact (pm_app Hw _ _ x y G X2 Y2).
  Qed.
End FBuild.
