(** Floating-point programs in every build: sorted(). *)
From Coq Require Import ZArith List Bool Lia Permutation.
From Verif.Spec Require Import Seq CastSpec FloatSpec MaskSpec VectorSpec NativeSpec PortableSpec PortableFpSpec.
From Verif.Model Require Import SplitSize Word Fp FpArith SseReg SseMove SortNet SseInt SseBuild SseArith SseMask SseNative SimdArray SimdArrayOps Mem
  AvxReg AvxMove AvxBuild AvxShuffle AvxMask AvxArith ScalarVec MaskedDiv Program Portable PortableFp.
From Verif.Proof Require Import WordP FpP SeqP SplitSizeP SortNetP SimdArrayP SimdArrayMoveP SimdArrayOrdP SimdArrayOpsP SimdArrayMain ScalarVecP SseIntP SseArithP SseFloatRedP SseVecMain AvxMaskP AvxArithP
  AvxVecMain MaskedDivMain SseBuildP AvxBuildP PortableP PortableOpsP PortableFpP.
Import ListNotations.
Local Open Scope Z_scope.


(** * Networks *)
(** the entries of the result are entries of the argument *)
Section Net.
  Context {w : nat} (xs : list (word w)).
  Let part := { x : word w | In x xs }.
  Let entry (x : part) : word w := proj1_sig x.
  Lemma fmin_in (a b : part) : In (mm_fmin (entry a) (entry b)) xs.
  Proof using. destruct a, b. unfold mm_fmin, entry. cbn. now destruct (flt _ _). Qed.
  Lemma fmax_in (a b : part) : In (mm_fmax (entry a) (entry b)) xs.
  Proof using. destruct a, b. unfold mm_fmax, entry. cbn. now destruct (flt _ _). Qed.
  Lemma parts ys : incl ys xs -> exists ps, map entry ps = ys.
  Proof using.
    induction ys as [|y ys IH]; intros I; [now exists []|]. destruct IH as (ps & P); [intros x Hx; apply I; now right|].
    exists (exist _ y (I y (or_introl eq_refl)) :: ps). cbn. now rewrite P.
  Qed.
  Lemma net_incl (net : forall X, (X -> X -> X) -> (X -> X -> X) -> list X -> list X) :
    (forall X Y (f : X -> Y) mn mx mn' mx', (forall a b, f (mn a b) = mn' (f a) (f b)) -> (forall a b, f (mx a b) = mx' (f a) (f b)) ->
       forall ys, map f (net X mn mx ys) = net Y mn' mx' (map f ys)) -> incl (net _ mm_fmin mm_fmax xs) xs.
  Proof using.
    intros H. destruct (parts xs (fun x Hx => Hx)) as (ps & P). intros x Hx. rewrite <- P in Hx.
    rewrite <- (H _ _ entry (fun a b => exist (fun x => In x xs) _ (fmin_in a b)) (fun a b => exist (fun x => In x xs) _ (fmax_in a b)) mm_fmin mm_fmax (fun _ _ => eq_refl) (fun _ _ => eq_refl) ps) in Hx.
    apply in_map_iff in Hx. destruct Hx as ((y & Hy) & <- & _). exact Hy.
  Qed.
End Net.

(** sorted, with the numbers of [xs] *)
Definition fsorts {w} (out xs : list (word w)) : Prop :=
  incl out xs /\ sorted_spec Z.leb (map fkey out) /\ Permutation (map fkey out) (map fkey xs).
Lemma fp_sorted_keys {w} (out : list (word w)) : sorted_spec fle out -> sorted_spec Z.leb (map fkey out).
Proof.
  induction out as [|x out IH]; cbn; auto. intros (H1 & H2). split; [|auto]. intros y Hy. apply in_map_iff in Hy. destruct Hy as (z & <- & Hz).
  specialize (H1 z Hz). unfold fle in H1. apply andb_prop in H1. tauto.
Qed.
Lemma fp_fsorts {w} (out xs : list (word w)) : fp_sorted out xs -> incl out xs -> fsorts out xs.
Proof. intros (_ & H1 & H2) I. split; [exact I|]. split; [now apply fp_sorted_keys|exact H2]. Qed.
Lemma fsorts_self {w} (x : word w) : fsorts [x] [x].
Proof. split; [apply incl_refl|]. split; [|auto]. cbn. split; [intros y []|auto]. Qed.

Section Sort.
  Context (b : build) (e : etype) (F : is_integer e = false).
  Let Hw : fp_width (esize e) := float_fp e F.
  Let W := b_native b e.
  Lemma sse_leaf (xs : list (elt e)) : length xs = (16 / esize e)%nat -> (forall x, In x xs -> nn x) -> fsorts (sse_sort e xs) xs.
  Proof using F b.
    intros L N. destruct e; try discriminate F; apply fp_fsorts; [now apply sse_float_sorted| |now apply sse_double_sorted|].
    - apply (net_incl xs (fun X mn mx => @sse_sorted_ps X mn mx)). intros. now apply hom_sse_ps.
    - apply (net_incl xs (fun X mn mx => @sse_sorted_pd X mn mx)). intros. now apply hom_sse_pd.
  Qed.
  Lemma avx_leaf (xs : list (elt e)) : length xs = (32 / esize e)%nat -> (forall x, In x xs -> nn x) -> fsorts (avx_sort e xs) xs.
  Proof using F b.
    intros L N. destruct e; try discriminate F; apply fp_fsorts; [now apply avx_float_sorted| |now apply avx_double_sorted|].
    - apply (net_incl xs (fun X mn mx => @avx_sorted_ps X mn mx)). intros X Y f a c a' c' H1 H2 ys. unfold avx_sorted_ps. rewrite (hom_phase1 f a c a' c' H1 H2).
      destruct (avx_sorted32_phase1 a c ys) as [x y]. cbn [fst snd]. unfold avx_sorted32_b, avx_sorted32_a. rewrite (hom_merge f a c a' c' H1 H2). now rewrite nat_shuffle4, nat_unpackhi.
    - apply (net_incl xs (fun X mn mx => @avx_sorted_pd X mn mx)). intros. now apply hom_avx_pd.
  Qed.
  Lemma leaf_sorts xs : W (length xs) = true -> (forall x, In x xs -> nn x) -> fsorts (n_sorted (b_moves b e) xs) xs.
  Proof using F b.
    intros N H. assert (S1 : length xs = 1%nat -> fsorts xs xs).
    { intros L. destruct xs as [|x [|y xs]]; try discriminate L. apply fsorts_self. }
    assert (SS : sse_native (esize e) (length xs) = true -> forall s, fsorts (n_sorted (sse_build s e wadd) xs) xs).
    { intros M s. unfold sse_build. cbn [sse_ops n_sorted]. destruct (Nat.eqb_spec (length xs) 1) as [L|L]; [auto|]. apply sse_leaf; auto.
      unfold sse_native in M. apply orb_prop in M. destruct M as [M|M]; apply Nat.eqb_eq in M; auto; contradiction. }
    unfold W, b_native in N. unfold b_moves. destruct (b_impl b) as [|s|avx2 g]; cbn [div_native] in N.
    - apply S1. now apply Nat.eqb_eq.
    - apply SS. exact N.
    - unfold avx_build, avx_build_undef. unfold avx_widths_of in N. destruct (has256 avx2 e); [|now apply SS].
      cbn [avx_ops n_sorted]. destruct (Nat.eqb_spec (length xs) (32 / esize e)) as [L|L]; [now apply avx_leaf|].
      apply (SS); auto. unfold avx_native in N. apply orb_prop in N. destruct N as [N|N]; [exact N|]. apply Nat.eqb_eq in N. contradiction.
  Qed.

  (** * Merging *)
  Lemma lo_keys (a r z : list (elt e)) : length a = length r -> (forall x, In x (a ++ r) -> nn x) -> Forall2 (better up) (combine a r) z ->
    map fkey z = map2 zmn (map fkey a) (map fkey r) /\ incl z (a ++ r).
  Proof using.
    revert r z. induction a as [|x a IH]; intros [|y r] z L N H; cbn in L; try discriminate L; cbn [combine] in H; inversion H as [|? v ? z' R1 R2]; subst; [split; [reflexivity|intros q []]|].
    assert (Nx : nn x) by (apply N; now left). assert (Ny : nn y) by (apply N; cbn; right; apply in_or_app; right; now left).
    destruct (R1 Nx Ny) as (K1 & K2). cbn [fst snd] in K1, K2. injection L as L.
    destruct (IH r z' L) as (J1 & J2); [intros q Hq; apply N; cbn; right; apply in_app_or in Hq; apply in_or_app; cbn; tauto|exact R2|].
    split.
    - cbn [map map2]. f_equal; [|exact J1]. destruct (K2 x) as (_ & K3); [now left|]. destruct (K2 y) as (_ & K4); [right; now left|]. unfold up in K3, K4. unfold zmn.
      destruct K1 as [<-|[<-|[]]]; destruct (Z.leb_spec (fkey x) (fkey y)); lia.
    - intros q [<-|Hq]; [destruct K1 as [<-|[<-|[]]]; [now left|cbn; right; apply in_or_app; right; now left]|]. specialize (J2 q Hq). cbn. right. apply in_app_or in J2. apply in_or_app. cbn. tauto.
  Qed.
  Lemma hi_keys (a r z : list (elt e)) : length a = length r -> (forall x, In x (a ++ r) -> nn x) -> Forall2 (better down) (combine a r) z ->
    map fkey z = map2 zmx (map fkey a) (map fkey r) /\ incl z (a ++ r).
  Proof using.
    revert r z. induction a as [|x a IH]; intros [|y r] z L N H; cbn in L; try discriminate L; cbn [combine] in H; inversion H as [|? v ? z' R1 R2]; subst; [split; [reflexivity|intros q []]|].
    assert (Nx : nn x) by (apply N; now left). assert (Ny : nn y) by (apply N; cbn; right; apply in_or_app; right; now left).
    destruct (R1 Nx Ny) as (K1 & K2). cbn [fst snd] in K1, K2. injection L as L.
    destruct (IH r z' L) as (J1 & J2); [intros q Hq; apply N; cbn; right; apply in_app_or in Hq; apply in_or_app; cbn; tauto|exact R2|].
    split.
    - cbn [map map2]. f_equal; [|exact J1]. destruct (K2 x) as (_ & K3); [now left|]. destruct (K2 y) as (_ & K4); [right; now left|]. unfold down in K3, K4. unfold zmx.
      destruct K1 as [<-|[<-|[]]]; destruct (Z.leb_spec (fkey x) (fkey y)); lia.
    - intros q [<-|Hq]; [destruct K1 as [<-|[<-|[]]]; [now left|cbn; right; apply in_or_app; right; now left]|]. specialize (J2 q Hq). cbn. right. apply in_app_or in J2. apply in_or_app. cbn. tauto.
  Qed.
  Lemma vmin_ok n t u : wf W n t -> wf W n u -> (forall x, In x (to_list t ++ to_list u) -> nn x) ->
    exists z, op2o (leaf_farith b e OMin) t u = Some z /\ wf W n z /\ map fkey (to_list z) = map2 zmn (map fkey (to_list t)) (map fkey (to_list u)) /\ incl (to_list z) (to_list t ++ to_list u).
  Proof using F b.
    intros Wt Wu N.
    destruct (op2o_leaves W (leaf_farith b e OMin) (better up) (fun _ => True)) with (n := n) (t := t) (u := u) as (z & Z1 & Z2 & Z3); auto; [|apply leaves_true|].
    - intros xs ys H _. apply (leaf_better b e RMin up); auto.
      + intros x y. cbn. eexists. split; [reflexivity|apply smin_best].
      + intros x y. apply mmin_best.
      + intros. now apply (sse_minmax b e F).
      + intros. now apply (avx_minmax b e F).
    - exists z. split; [exact Z1|]. split; [exact Z2|]. apply lo_keys; auto. exact (eq_trans (wf_len W (Ww b e) _ _ Wt) (eq_sym (wf_len W (Ww b e) _ _ Wu))).
  Qed.
  Lemma vmax_ok n t u : wf W n t -> wf W n u -> (forall x, In x (to_list t ++ to_list u) -> nn x) ->
    exists z, op2o (leaf_farith b e OMax) t u = Some z /\ wf W n z /\ map fkey (to_list z) = map2 zmx (map fkey (to_list t)) (map fkey (to_list u)) /\ incl (to_list z) (to_list t ++ to_list u).
  Proof using F b.
    intros Wt Wu N.
    destruct (op2o_leaves W (leaf_farith b e OMax) (better down) (fun _ => True)) with (n := n) (t := t) (u := u) as (z & Z1 & Z2 & Z3); auto; [|apply leaves_true|].
    - intros xs ys H _. apply (leaf_better b e RMax down); auto.
      + intros x y. cbn. eexists. split; [reflexivity|apply smax_best].
      + intros x y. apply mmax_best.
      + intros. now apply (sse_minmax b e F).
      + intros. now apply (avx_minmax b e F).
    - exists z. split; [exact Z1|]. split; [exact Z2|]. apply hi_keys; auto. exact (eq_trans (wf_len W (Ww b e) _ _ Wt) (eq_sym (wf_len W (Ww b e) _ _ Wu))).
  Qed.

  Definition asorts n (r : option (sa (elt e))) (xs : list (elt e)) : Prop := exists t, r = Some t /\ wf W n t /\ fsorts (to_list t) xs.
  Lemma fsorted_pow2 : forall fuel n t, (exists j, n = Nat.pow 2 j) -> wf W n t -> (n <= fuel)%nat -> (forall x, In x (to_list t) -> nn x) ->
    asorts n (fsorted_f b e fuel t) (to_list t).
  Proof using F b.
    pose proof (Ww b e) as WW.
    induction fuel as [|fuel IH]; intros n t P Wt HF N; pose proof (wf_size W WW _ _ Wt) as (S1 & S2 & S3); [lia|].
    destruct t as [xs|d0 d1]; cbn [fsorted_f].
    - inversion Wt as [n' xs' Nn L|]; subst n' xs' n. destruct (leaf_sorts xs Nn N) as (I & Q1 & Q2).
      eexists. split; [reflexivity|]. split; [|exact (conj I (conj Q1 Q2))]. constructor; auto. apply Permutation_length in Q2. now rewrite !map_length in Q2.
    - inversion Wt as [|n' l r E W0 W1]; subst n' l r.
      pose proof (not_native_ge2 W WW n S3 E) as H2. destruct (pow2_halves W n E H2 P) as (j & Ej & E0 & E1). destruct (right_left n H2) as [R1 R2].
      assert (EH : right_size n = left_size n) by congruence. assert (Ph : exists j, left_size n = Nat.pow 2 j) by eauto.
      assert (Z0 := wf_sz W WW _ _ W0). assert (Z1 := wf_sz W WW _ _ W1). unfold elt in Z0, Z1 |- *. rewrite Z0, Z1. rewrite EH in *. rewrite Nat.eqb_refl. set (h := left_size n) in *.
      cbn [to_list] in N |- *.
      destruct (IH h d0 Ph W0 ltac:(lia) ltac:(intros; apply N, in_or_app; auto)) as (a & A0 & Wa & Ia & Sa & Pa). unfold elt in A0. rewrite A0.
      destruct (IH h d1 Ph W1 ltac:(lia) ltac:(intros; apply N, in_or_app; auto)) as (c & C0 & Wc & Ic & Sc & Pc). unfold elt in C0. rewrite C0. cbn [obind].
      destruct (reversed_yields W (b_moves b e) (w0 _) WW (moves_ok b e) h c Wc) as (rc & RC & Wrc & Lrc). unfold elt, W in RC. rewrite RC. cbn [obind].
      assert (Nr : forall x, In x (to_list a ++ to_list rc) -> nn x).
      { intros x Hx. apply N, in_or_app. apply in_app_or in Hx. rewrite Lrc, <- in_rev in Hx. destruct Hx as [Hx|Hx]; [left; now apply Ia|right; now apply Ic]. }
      destruct (vmin_ok h a rc Wa Wrc Nr) as (lo & LO & Wlo & Klo & Ilo). destruct (vmax_ok h a rc Wa Wrc Nr) as (hi & HI & Whi & Khi & Ihi). unfold elt in LO, HI. rewrite LO, HI. cbn [obind].
      destruct (IH h lo Ph Wlo ltac:(lia) ltac:(intros x Hx; apply Nr; now apply Ilo)) as (slo & SL & Wslo & Islo & Sslo & Pslo). unfold elt in SL. rewrite SL.
      destruct (IH h hi Ph Whi ltac:(lia) ltac:(intros x Hx; apply Nr; now apply Ihi)) as (shi & SH & Wshi & Ishi & Sshi & Pshi). unfold elt in SH. rewrite SH.
      cbn [obind]. eexists. split; [reflexivity|]. split; [constructor; auto; now rewrite EH|].
      assert (HL : length (map fkey (to_list a)) = length (map fkey (to_list c))) by (rewrite !map_length; exact (eq_trans (wf_len W WW _ _ Wa) (eq_sym (wf_len W WW _ _ Wc)))).
      unfold elt in Lrc, Klo, Khi. rewrite Lrc, map_rev in Klo, Khi. cbn [to_list]. split; [|split].
      + intros x Hx. apply in_app_or in Hx. assert (Hy : In x (to_list a ++ to_list rc)) by (destruct Hx as [Hx|Hx]; [apply Ilo, Islo, Hx|apply Ihi, Ishi, Hx]).
        apply in_app_or in Hy. unfold elt in Hy. rewrite Lrc, <- in_rev in Hy. apply in_or_app. destruct Hy as [Hy|Hy]; [left; now apply Ia|right; now apply Ic].
      + rewrite map_app. apply sorted_spec_app; auto. intros x y Hx Hy. apply (Permutation_in _ Pslo) in Hx. apply (Permutation_in _ Pshi) in Hy. unfold elt in Klo, Khi. rewrite Klo in Hx. rewrite Khi in Hy.
        apply (bitonic_split 0 Z.leb zmn zmx zle_total (fun _ _ => eq_refl) (fun _ _ => eq_refl) (map fkey (to_list a)) (map fkey (to_list c))); auto.
      + rewrite !map_app. rewrite Pslo, Pshi. unfold elt in Klo, Khi. rewrite Klo, Khi.
        rewrite minmax_perm; [|intros x y; unfold zmn, zmx; destruct (x <=? y); auto; apply perm_swap|now rewrite rev_length]. rewrite <- Permutation_rev. now apply Permutation_app.
  Qed.

  Lemma top_val : uval (e_top e) = inf_magnitude (esize e) /\ fkey (e_top e) = inf_magnitude (esize e).
  Proof using F b. destruct e; try discriminate F; split; vm_compute; reflexivity. Qed.
  Lemma key_top (x : elt e) : nn x -> fkey x <= fkey (e_top e).
  Proof using F b.
    intros N. rewrite (proj2 top_val). unfold nn, is_nan in N. apply Z.ltb_ge in N. unfold fkey, magnitude in *. assert (P : 0 < sign_weight (esize e)) by (destruct e; reflexivity).
    pose proof (Z.mod_pos_bound (uval x) _ P). destruct (negative x); lia.
  Qed.
  Lemma key_inf (x : elt e) : nn x -> fkey x = fkey (e_top e) -> x = e_top e.
  Proof using F b.
    intros N K. apply word_ext. rewrite (proj1 top_val). rewrite (proj2 top_val) in K. clear N.
    assert (P : 0 < sign_weight (esize e)) by (destruct e; reflexivity). assert (I : 0 < inf_magnitude (esize e)) by (destruct e; try discriminate F; reflexivity).
    unfold fkey, magnitude, negative in K. pose proof (Z.mod_pos_bound (uval x) _ P). pose proof (uval_range x) as R.
    destruct (Z.leb_spec (sign_weight (esize e)) (uval x)); [lia|]. rewrite Z.mod_small in K by lia. exact K.
  Qed.
  Lemma top_nn : nn (e_top e).
  Proof using F b. destruct e; try discriminate F; reflexivity. Qed.

  Lemma fsorted_all n t : wf W n t -> (forall x, In x (to_list t) -> nn x) -> asorts n (b_fsorted b e t) (to_list t).
  Proof using F b.
    pose proof (Ww b e) as WW. intros Wt N. pose proof (wf_size W WW _ _ Wt) as (S1 & S2 & S3).
    unfold b_fsorted. assert (S1' := S1). unfold elt in S1' |- *. replace (4 * size t + 2)%nat with (S (4 * n + 1)) by lia.
    destruct t as [xs|d0 d1].
    { apply fsorted_pow2; auto; [|lia]. inversion Wt as [n' xs' Nn L|]; subst n' xs'. now apply WW. }
    inversion Wt as [|n' l r E W0 W1]; subst n' l r.
    pose proof (not_native_ge2 W WW n S3 E) as H2.
    destruct (Nat.eq_dec (left_size n) (right_size n)) as [EH|EH].
    { apply fsorted_pow2; auto; [|lia]. now apply (halves_pow2 n). }
    cbn [fsorted_f]. assert (Z0 := wf_sz W WW _ _ W0). assert (Z1 := wf_sz W WW _ _ W1). unfold elt in S1, Z0, Z1 |- *. rewrite S1, Z0, Z1.
    destruct (Nat.eqb_spec (left_size n) (right_size n)); [congruence|].
    destruct (next_pow2_spec n ltac:(lia)) as (k & EK & K1 & K2). cbv zeta. rewrite EK. set (m := Nat.pow 2 k) in *.
    set (xs := to_list (Node d0 d1)) in *. set (f := fun i => if i <? Z.of_nat n then znth (w0 (esize e)) xs i else e_top e).
    assert (Wg : wf W m (generate W m f)) by (apply generate_wf; auto; lia).
    assert (Lg : to_list (generate W m f) = xs ++ repeat (e_top e) (m - n)).
    { rewrite generate_list by (auto; lia). symmetry. apply list_ext_tab with (d := w0 (esize e)).
      - rewrite app_length, repeat_length. unfold elt in *. lia.
      - intros z Hz. rewrite znth_app. assert (S2' := S2). unfold elt in S2' |- *. rewrite S2'. unfold f. zcases; auto. rewrite znth_repeat; auto. lia. }
    assert (Ng : forall x, In x (to_list (generate W m f)) -> nn x).
    { intros x Hx. rewrite Lg in Hx. apply in_app_or in Hx. destruct Hx as [Hx|Hx]; [now apply N|]. apply repeat_spec in Hx. subst. apply top_nn. }
    destruct (fsorted_pow2 (4 * n + 1) m (generate W m f) (ex_intro _ k eq_refl) Wg ltac:(lia) Ng) as (s & SS & Ws & Is & Ss & Ps). unfold elt, W in SS. rewrite SS.
    cbn [obind]. eexists. split; [reflexivity|]. split; [apply cast_wf; auto; lia|].
    rewrite Lg in Ps, Is. rewrite map_app, map_repeat in Ps.
    destruct (sort_exists _ Z.leb (map fkey xs) zle_total) as (q & Sq & Pq).
    assert (LQ : length q = n) by (apply Permutation_length in Pq; rewrite map_length in Pq; exact (eq_trans Pq S2)).
    assert (Q : map fkey (to_list s) = q ++ repeat (fkey (e_top e)) (m - n)).
    { apply sorted_perm_unique with (le := Z.leb); auto.
      - apply Z.leb_refl.
      - intros. lia.
      - apply sorted_spec_app; auto; [apply sorted_repeat, zle_total|]. intros x y Hx Hy. apply repeat_spec in Hy. subst. apply Z.leb_le.
        apply (Permutation_in _ Pq), in_map_iff in Hx. destruct Hx as (v & <- & Hv). apply key_top. now apply N.
      - rewrite Ps. now rewrite Pq. }
    assert (C : to_list (cast W (w0 _) n s) = firstn n (to_list s)).
    { rewrite cast_list by (auto; lia). symmetry. apply list_ext_tab with (d := w0 (esize e)).
      - rewrite firstn_length. pose proof (wf_len W WW _ _ Ws). unfold elt in *. lia.
      - intros z Hz. apply AvxGatherP.znth_firstn_lt. lia. }
    assert (KC : map fkey (to_list (cast W (w0 _) n s)) = q).
    { rewrite C, <- firstn_map. unfold elt in Q |- *. rewrite Q, <- LQ, firstn_app, Nat.sub_diag, firstn_all, firstn_O. apply app_nil_r. }
    unfold W in C, KC. unfold fsorts. unfold elt in KC |- *. rewrite KC. split; [|auto].
    intros x Hx. assert (Hs : In x (to_list s)). { unfold elt in C. rewrite C in Hx. rewrite <- (firstn_skipn n (to_list s)). apply in_or_app. now left. }
    apply Is, in_app_or in Hs. destruct Hs as [Hs|Hs]; [exact Hs|]. apply repeat_spec in Hs.
    assert (Hk : In (fkey x) (map fkey xs)) by (apply (Permutation_in _ Pq); rewrite <- KC; now apply in_map). apply in_map_iff in Hk. destruct Hk as (y & Y1 & Y2).
    assert (Y : y = e_top e) by (apply key_inf; [now apply N|rewrite Y1; now f_equal]). congruence.
  Qed.
End Sort.

(** * The result is determined *)
Section Unique.
  Context {w : nat} (Hw : fp_width w).
  Lemma insert_perm (a : word w) : forall xs, Permutation (f_insert a xs) (a :: xs).
  Proof using. induction xs as [|y xs IH]; cbn; [auto|]. destruct (fvalue a <=? fvalue y); [auto|]. rewrite IH. apply perm_swap. Qed.
  Lemma isort_perm : forall xs : list (word w), Permutation (fold_right f_insert [] xs) xs.
  Proof using. induction xs as [|a xs IH]; cbn; [auto|]. rewrite insert_perm. now constructor. Qed.
  Lemma insert_sorted (a : word w) : forall xs, sorted_spec Z.leb (map fkey xs) -> sorted_spec Z.leb (map fkey (f_insert a xs)).
  Proof using Hw.
    induction xs as [|y xs IH]; cbn; intros S; [split; [intros q []|auto]|]. destruct S as (S1 & S2). rewrite (value_key_le Hw). destruct (Z.leb_spec (fkey a) (fkey y)).
    - cbn. split; [|auto]. intros q [<-|Hq]; apply Z.leb_le; [lia|]. specialize (S1 q Hq). lia.
    - cbn. split; [|now apply IH]. intros q Hq. apply (Permutation_in _ (Permutation_map fkey (insert_perm a xs))) in Hq. cbn in Hq. destruct Hq as [<-|Hq]; [apply Z.leb_le; lia|now apply S1].
  Qed.
  Lemma isort_sorts (xs : list (word w)) : fsorts (fold_right f_insert [] xs) xs.
  Proof using Hw.
    split; [|split].
    - intros x Hx. exact (Permutation_in _ (isort_perm xs) Hx).
    - induction xs as [|a xs IH]; cbn [fold_right]; [exact I|]. now apply insert_sorted.
    - apply Permutation_map, isort_perm.
  Qed.
  Lemma no_zeros (xs : list (word w)) a c : existsb (fun a => existsb (two_zeros a) xs) xs = false -> In a xs -> In c xs -> fkey a = fkey c -> a = c.
  Proof using Hw.
    intros T Ha Hc K. apply two_zeros_eq.
    - destruct (two_zeros a c) eqn:E; [|reflexivity]. exfalso. rewrite <- not_true_iff_false in T. apply T. apply existsb_exists. exists a. split; [exact Ha|]. apply existsb_exists. exists c. auto.
    - apply Z.eqb_eq. rewrite (value_key_eq Hw). now apply Z.eqb_eq.
  Qed.
  Lemma fsorts_unique (xs o1 o2 : list (word w)) : existsb (fun a => existsb (two_zeros a) xs) xs = false -> fsorts o1 xs -> fsorts o2 xs -> o1 = o2.
  Proof using Hw.
    intros T (I1 & S1 & P1) (I2 & S2 & P2).
    assert (K : map fkey o1 = map fkey o2).
    { apply sorted_perm_unique with (le := Z.leb); auto; [apply Z.leb_refl|intros; lia|]. rewrite P1. now symmetry. }
    clear S1 S2 P1 P2. revert o2 I2 K. induction o1 as [|a o1 IH]; intros [|c o2] I2 K; try discriminate K; [reflexivity|]. injection K as K1 K2. f_equal.
    - apply (no_zeros xs); auto; [apply I1|apply I2]; now left.
    - apply IH; auto; intros x Hx; [apply I1|apply I2]; now right.
  Qed.
  Lemma fvalue_of_key : exists g, forall x : word w, fvalue x = g (fkey x).
  Proof using Hw.
    exists (fun k => if k <? 0 then - mval (mant_bits w) (- k) else mval (mant_bits w) k). intros x. unfold fvalue, fkey. rewrite (sign_bit_neg Hw), (fabs_mval Hw).
    destruct (fields Hw x) as (_ & _ & R). destruct (negative x); [|destruct (Z.ltb_spec (magnitude x) 0); [lia|reflexivity]].
    destruct (Z.ltb_spec (- magnitude x) 0); [now rewrite Z.opp_involutive|]. replace (magnitude x) with 0 by lia. change (- 0) with 0. now rewrite mval_0 by (destruct Hw as [-> | ->]; discriminate).
  Qed.
  Lemma sorted_values (xs : list (word w)) : (forall x, In x xs -> is_NaN x = false) -> sorted_spec Z.leb (map fkey xs) -> sorted_spec float_le xs.
  Proof using Hw.
    induction xs as [|x xs IH]; cbn; auto. intros N (S1 & S2). split; [|auto]. intros y Hy. unfold float_le, ordered. rewrite (N x), (N y) by auto. cbn. rewrite (value_key_le Hw). apply S1. now apply in_map.
  Qed.
End Unique.
