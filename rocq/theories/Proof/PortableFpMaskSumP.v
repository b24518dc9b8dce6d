(** Floating-point programs in every build: sum(mask) of entries whose additions are exact. *)
From Coq Require Import ZArith List Bool Lia.
From Verif.Spec Require Import Seq FloatSpec MaskSpec VectorSpec NativeSpec PortableSpec PortableFpSpec.
From Verif.Model Require Import SplitSize Word Fp FpArith SseReg SseMove SseInt SseBuild SseArith SseMask SseNative SimdArray SimdArrayOps
  AvxReg AvxMove AvxBuild AvxShuffle AvxMask AvxArith ScalarVec MaskedDiv Program Portable PortableFp.
From Verif.Proof Require Import WordP FpP FpIntP SeqP SimdArrayP SimdArrayOpsP ScalarVecP SseIntP SseArithP SseBuildP SseNativeP AvxArithP AvxNativeP PortableP PortableOpsP PortableFpP PortableFpSumP PortableFpPsumP.
Import ListNotations.
Local Open Scope Z_scope.

Section Sum.
  Context {w : nat} (Hw : fp_width w) (k : Z) (K : 0 <= k) (KT : mant_bits w + 1 + k <= top_exp w).
  Notation B := (2 ^ (mant_bits w + 1 + k)).
  (** zeros to which the selected entries are assigned *)
  Definition filled (m : list bool) (xs : list (word w)) : list (word w) := masked_update_spec m xs (repeat (w0 w) (length xs)).
  Lemma filled_len m xs : length m = length xs -> length (filled m xs) = length xs.
  Proof using. intros L. unfold filled, masked_update_spec. rewrite map3_length; rewrite ?repeat_length; auto; congruence. Qed.
  Lemma filled_ok m : forall xs, length m = length xs -> good k (select_spec m xs) ->
    good k (filled m xs) /\ zsum (filled m xs) = zsum (select_spec m xs).
  Proof using Hw.
    assert (X : forall xs, length m = length xs -> (forall x, In x (select_spec m xs) -> num k x (fvalue x)) ->
      (forall x, In x (filled m xs) -> num k x (fvalue x)) /\ zabs (filled m xs) = zabs (select_spec m xs) /\ zsum (filled m xs) = zsum (select_spec m xs)).
    { pose proof (num_0 Hw k) as N0. assert (V0 : fvalue (w0 w) = 0) by apply N0.
      induction m as [|c m IH]; intros [|x xs] L G; try discriminate L; [cbn; split; [intros ? []|auto]|]. cbn [select_spec] in G. 
      change (filled (c :: m) (x :: xs)) with ((if c then x else w0 w) :: filled m xs). cbn [select_spec].
      destruct (IH xs) as (A1 & A2 & A3); [now injection L|intros z Hz; apply G, in_or_app; auto|]. rewrite zsum_app, zabs_app. cbn [zsum zabs fold_right]. fold (zsum (filled m xs)) (zabs (filled m xs)).
      rewrite A2, A3. destruct c; cbn [zsum zabs fold_right].
      - split; [intros z [<-|Hz]; [apply G; now left|now apply A1]|]. lia.
      - rewrite V0. split; [intros z [<-|Hz]; [rewrite V0; exact N0|now apply A1]|]. split; reflexivity. }
    intros xs L (G & H). destruct (X xs L G) as (A1 & A2 & A3). split; [|exact A3]. split; [exact A1|]. now rewrite A2.
  Qed.
  Lemma good_fits (xs : list (word w)) : good k xs -> fits k xs.
  Proof using. intros (G & H). split; [|exact H]. apply Forall_forall. intros x Hx. apply (G x Hx). Qed.
  Lemma sm_num (x : word w) xs v : good k (x :: xs) -> sm (x :: xs) v -> num k v (zsum (x :: xs)).
  Proof using.
    intros G S. pose proof (sm_grid k _ _ (good_fits _ G) S) as Gr. destruct S as (F & V & N). split; [exact Gr|]. split; [exact V|]. rewrite N. cbn [forallb]. destruct (proj1 G x (or_introl eq_refl)) as (_ & _ & ->). reflexivity.
  Qed.
  Lemma fold_num (xs : list (word w)) : good k xs -> num k (fold_left fadd xs (w0 w)) (zsum xs).
  Proof using Hw K KT.
    intros (G & H). assert (X : forall (ys : list (word w)) a s, (forall y, In y ys -> num k y (fvalue y)) -> num k a s -> Z.abs s + zabs ys < B -> num k (fold_left fadd ys a) (s + zsum ys)).
    { induction ys as [|y ys IH]; intros a s Gy Na Hs; cbn [fold_left zsum zabs fold_right] in *; [now rewrite Z.add_0_r|]. fold (zsum ys). fold (zabs ys) in Hs.
      pose proof (zabs_bound ys). rewrite Z.add_assoc. apply IH; [intros; apply Gy; now right| |lia]. apply (num_add Hw k K KT); [exact Na|apply Gy; now left|lia]. }
    change (zsum xs) with (0 + zsum xs). apply X; [exact G|exact (num_0 Hw k)|cbn; exact H].
  Qed.
End Sum.

Section FBuild.
  Context (b : build) (e : etype) (F : is_integer e = false).
  Let Hw : fp_width (esize e) := float_fp e F.
  Let W := b_native b e.
  Context (k : Z) (K : 0 <= k) (KT : mant_bits (esize e) + 1 + k <= top_exp (esize e)).
  Lemma leaf_mask xs m : W (length xs) = true -> length m = length xs -> good k (select_spec m xs) -> num k (leaf_fsum_mask b e xs m) (zsum (select_spec m xs)).
  Proof using F K KT.
    intros N L G. destruct (filled_ok Hw k m xs L G) as (G1 & G2). pose proof (filled_len m xs L) as FL.
    assert (N' : W (length (filled m xs)) = true) by (rewrite FL; exact N).
    destruct (leaf_sum b e F k K KT (filled m xs) N' (good_fits k _ G1)) as (v & V1 & V2).
    assert (Q : (exists c x, m = [c] /\ xs = [x]) \/ leaf_fsum_mask b e xs m = v).
    { revert V1. unfold leaf_freduce, leaf_fsum_mask, by_width. unfold elt in FL |- *. rewrite FL.
      destruct (Nat.eqb_spec (length xs) 1) as [E1|E1].
      - intros _. left. destruct xs as [|x [|? ?]]; try discriminate E1. destruct m as [|c [|? ?]]; try discriminate L. eauto.
      - destruct (Nat.eqb_spec (length xs) (16 / esize e)) as [E2|E2].
        + intros V. right. injection V as <-. f_equal. rewrite (setzero_pack (esize e)) by apply esize_lane. apply assign_pad; auto.
        + destruct (leaf_width b e _ N) as [E|[(_ & E)|(_ & _ & E & a & g & BI)]]; try contradiction. rewrite BI. intros V. right. injection V as <-. f_equal. rewrite (yzero_pack e). apply yassign_pad; auto. }
    destruct Q as [(c & x & -> & ->)|Q].
    - assert (LE : leaf_fsum_mask b e [x] [c] = if c then x else w0 _) by (destruct c; reflexivity). rewrite LE. destruct c; cbn [select_spec app zsum fold_right] in *; [|apply (num_0 Hw)].
      rewrite Z.add_0_r. apply G. now left.
    - rewrite Q, <- G2. destruct (filled m xs) as [|y ys]; [|now apply sm_num]. destruct (proj2 (Ww b e) 0%nat N') as (j & J). pose proof (Nat.pow_nonzero 2 j). exfalso. lia.
  Qed.
  Lemma mask_sum (MK : native_masks_ok W (b_masks b e)) n t : wf W n t -> forall q, wf W n q -> good k (select_spec (to_list q) (to_list t)) ->
    exists r, reduce_masked (b_masks b e) (leaf_fsum_mask b e) fadd t q = Some r /\ num k r (zsum (select_spec (to_list q) (to_list t))).
  Proof using F K KT.
    pose proof (Ww b e) as WW.
    induction 1 as [n xs N L|n l r E W0 IH0 W1 IH1]; intros q Wq G; inversion Wq as [n' qs N' L'|n' q0 q1 E' Q0 Q1]; subst; try congruence.
    - cbn [reduce_masked to_list] in *. eexists. split; [reflexivity|]. apply leaf_mask; auto.
    - cbn [reduce_masked to_list] in *. pose proof (wf_len W WW _ _ W0) as L0. pose proof (wf_len W WW _ _ Q0) as L1.
      assert (LE : length (to_list q0) = length (to_list l)) by congruence. rewrite (select_app _ _ _ _ _ LE) in G |- *. destruct (good_app k _ _ G) as (G0 & G1).
      pose proof (is_empty_ok W (b_masks b e) MK _ q0 Q0) as M0. pose proof (is_empty_ok W (b_masks b e) MK _ q1 Q1) as M1. rewrite zsum_app.
      destruct (is_empty (b_masks b e) q0) eqn:B0; [|destruct (is_empty (b_masks b e) q1) eqn:B1].
      + rewrite (select_none _ (to_list l) (proj1 M0 eq_refl)) in *. cbn [zsum fold_right]. now apply IH1.
      + rewrite (select_none _ (to_list r) (proj1 M1 eq_refl)) in *. cbn [zsum fold_right]. rewrite Z.add_0_r. now apply IH0.
      + destruct (IH0 q0 Q0 G0) as (x & X1 & X2). destruct (IH1 q1 Q1 G1) as (y & Y1 & Y2). unfold elt in X1, Y1 |- *. rewrite X1, Y1. cbn [obind]. eexists. split; [reflexivity|].
        apply (num_add Hw k K KT); [exact X2|exact Y2|]. rewrite <- zsum_app. pose proof (zabs_bound (select_spec (to_list q0) (to_list l) ++ select_spec (to_list q1) (to_list r))). destruct G. unfold elt in *. lia.
  Qed.
End FBuild.
