(** Floating-point programs in every build: partialSum() of entries whose additions are exact. *)
From Coq Require Import ZArith List Bool Lia.
From Verif.Spec Require Import Seq FloatSpec VectorSpec NativeSpec PortableSpec PortableFpSpec.
From Verif.Model Require Import SplitSize Word Fp FpArith SseReg SseMove SseInt SseBuild SimdArray SimdArrayOps
  AvxReg AvxMove AvxBuild ScalarVec MaskedDiv Program Portable PortableFp.
From Verif.Proof Require Import WordP FpP FpIntP SeqP SimdArrayP SimdArrayOrdP SimdArrayOpsP ScalarVecP SseMoveP SseVecP AvxVecP SseArithP SseBuildP AvxNativeP AvxBuildP PortableP PortableOpsP PortableFpP PortableFpSumP.
Import ListNotations.
Local Open Scope Z_scope.

(** the vectors of a build: additions of shifted vectors *)
Section Form.
  Context {A : Type} (zero : A) (add : A -> A -> A).
  Definition shift_add (k : Z) (ys : list A) : list A := map2 add ys (shift_spec zero ys (- k)).
  Lemma shift_add_len k ys : length (shift_add k ys) = length ys.
  Proof. unfold shift_add. rewrite map2_length. unfold shift_spec. rewrite tab_length. lia. Qed.
  Lemma form2 x0 x1 : shift_add 1 [x0; x1] = [add x0 zero; add x1 x0].
  Proof. cbv. reflexivity. Qed.
  Lemma form4 x0 x1 x2 x3 : shift_add 2 (shift_add 1 [x0; x1; x2; x3]) = [add (add x0 zero) zero; add (add x1 x0) zero; add (add x2 x1) (add x0 zero); add (add x3 x2) (add x1 x0)].
  Proof. cbv. reflexivity. Qed.
  Lemma form8 x0 x1 x2 x3 x4 x5 x6 x7 : shift_add 4 (shift_add 2 (shift_add 1 [x0; x1; x2; x3; x4; x5; x6; x7])) =
    [add (add (add x0 zero) zero) zero; add (add (add x1 x0) zero) zero; add (add (add x2 x1) (add x0 zero)) zero; add (add (add x3 x2) (add x1 x0)) zero;
     add (add (add x4 x3) (add x2 x1)) (add (add x0 zero) zero); add (add (add x5 x4) (add x3 x2)) (add (add x1 x0) zero);
     add (add (add x6 x5) (add x4 x3)) (add (add x2 x1) (add x0 zero)); add (add (add x7 x6) (add x5 x4)) (add (add x3 x2) (add x1 x0))].
  Proof. cbv. reflexivity. Qed.
End Form.

Section Sum.
  Context {w : nat} (Hw : fp_width w) (k : Z) (K : 0 <= k) (KT : mant_bits w + 1 + k <= top_exp w).
  Notation B := (2 ^ (mant_bits w + 1 + k)).
  Definition num (x : word w) (z : Z) : Prop := grid k x /\ fvalue x = z /\ nz x = false.
  Lemma num_add x y a b : num x a -> num y b -> Z.abs (a + b) < B -> num (fadd x y) (a + b).
  Proof using Hw K KT. intros (Gx & <- & Nx) (Gy & <- & Ny) H. destruct (add_ok Hw k K KT x y Gx Gy H) as (G & V & N). split; [exact G|]. split; [exact V|]. now rewrite N, Nx. Qed.
  Lemma num_eq x y z : num x z -> num y z -> x = y.
  Proof using Hw. intros ((F & _) & V & N) ((F' & _) & V' & N'). apply (sm_unique Hw [x]); [now apply sm1|]. split; [exact F'|]. cbn. rewrite andb_true_r. split; [lia|congruence]. Qed.
  Lemma num_0 : num (w0 w) 0.
  Proof using Hw. assert (H : is_Finite (w0 w) = true /\ fvalue (w0 w) = 0 /\ nz (w0 w) = false) by (clear -Hw; destruct Hw as [->| ->]; vm_compute; auto). destruct H as (H1 & H2 & H3). split; [split; [exact H1|rewrite H2; apply Z.divide_0_r]|auto]. Qed.
  Lemma num_to x a b : num x a -> a = b -> num x b.
  Proof using. now intros ? <-. Qed.
  Ltac rs := first [eassumption|exact num_0|eapply num_add; [rs|rs|apply Z.abs_lt; lia]].
  Ltac re := eapply num_eq; [rs|eapply num_to; [rs|lia]].
  Ltac rl := repeat (apply f_equal2; [first [reflexivity|re]|]); reflexivity.

  Lemma leaf2 x0 x1 v0 v1 a0 a1 : num x0 v0 -> num x1 v1 -> -a0 <= v0 <= a0 -> -a1 <= v1 <= a1 -> a0 + (a1 + 0) < B ->
    shift_add (w0 _) fadd 1 [x0; x1] = partial_sum_spec fadd [x0; x1].
  Proof using Hw K KT. intros. rewrite form2. cbn [partial_sum_spec scan_spec]. rl. Qed.
  Lemma leaf4 x0 x1 x2 x3 v0 v1 v2 v3 a0 a1 a2 a3 : num x0 v0 -> num x1 v1 -> num x2 v2 -> num x3 v3 ->
    -a0 <= v0 <= a0 -> -a1 <= v1 <= a1 -> -a2 <= v2 <= a2 -> -a3 <= v3 <= a3 -> a0 + (a1 + (a2 + (a3 + 0))) < B ->
    shift_add (w0 _) fadd 2 (shift_add (w0 _) fadd 1 [x0; x1; x2; x3]) = partial_sum_spec fadd [x0; x1; x2; x3].
  Proof using Hw K KT. intros. rewrite form4. cbn [partial_sum_spec scan_spec]. rl. Qed.
  Lemma leaf8 x0 x1 x2 x3 x4 x5 x6 x7 v0 v1 v2 v3 v4 v5 v6 v7 a0 a1 a2 a3 a4 a5 a6 a7 : num x0 v0 -> num x1 v1 -> num x2 v2 -> num x3 v3 -> num x4 v4 -> num x5 v5 -> num x6 v6 -> num x7 v7 ->
    -a0 <= v0 <= a0 -> -a1 <= v1 <= a1 -> -a2 <= v2 <= a2 -> -a3 <= v3 <= a3 -> -a4 <= v4 <= a4 -> -a5 <= v5 <= a5 -> -a6 <= v6 <= a6 -> -a7 <= v7 <= a7 ->
    a0 + (a1 + (a2 + (a3 + (a4 + (a5 + (a6 + (a7 + 0))))))) < B ->
    shift_add (w0 _) fadd 4 (shift_add (w0 _) fadd 2 (shift_add (w0 _) fadd 1 [x0; x1; x2; x3; x4; x5; x6; x7])) = partial_sum_spec fadd [x0; x1; x2; x3; x4; x5; x6; x7].
  Proof using Hw K KT. intros. rewrite form8. cbn [partial_sum_spec scan_spec]. rl. Qed.
  Definition good (xs : list (word w)) : Prop := (forall x, In x xs -> num x (fvalue x)) /\ zabs xs < B.
  Lemma abs2 z : - Z.abs z <= z <= Z.abs z.
  Proof using. lia. Qed.
  Ltac ins := cbn [In]; repeat first [left; reflexivity|right].
  Lemma good2 x0 x1 : good [x0; x1] -> shift_add (w0 _) fadd 1 [x0; x1] = partial_sum_spec fadd [x0; x1].
  Proof using Hw K KT. intros (G & H). cbn [zabs fold_right] in H. eapply leaf2; [apply G; ins..| | |exact H]; apply abs2. Qed.
  Lemma good4 x0 x1 x2 x3 : good [x0; x1; x2; x3] -> shift_add (w0 _) fadd 2 (shift_add (w0 _) fadd 1 [x0; x1; x2; x3]) = partial_sum_spec fadd [x0; x1; x2; x3].
  Proof using Hw K KT. intros (G & H). cbn [zabs fold_right] in H. eapply leaf4; [apply G; ins..| | | | |exact H]; apply abs2. Qed.
  Lemma good8 x0 x1 x2 x3 x4 x5 x6 x7 : good [x0; x1; x2; x3; x4; x5; x6; x7] -> shift_add (w0 _) fadd 4 (shift_add (w0 _) fadd 2 (shift_add (w0 _) fadd 1 [x0; x1; x2; x3; x4; x5; x6; x7])) = partial_sum_spec fadd [x0; x1; x2; x3; x4; x5; x6; x7].
  Proof using Hw K KT. intros (G & H). cbn [zabs fold_right] in H. eapply leaf8; [apply G; ins..| | | | | | | | |exact H]; apply abs2. Qed.

  (** the sum of a list and the carry into the next one *)
  Lemma last_sum x xs : good (x :: xs) -> num (last (partial_sum_spec fadd (x :: xs)) (w0 _)) (zsum (x :: xs)).
  Proof using Hw K KT.
    intros (G & H). cbn [partial_sum_spec zsum zabs fold_right] in *. fold (zsum xs). fold (zabs xs) in H.
    assert (X : forall ys a s, (forall y, In y ys -> num y (fvalue y)) -> num a s -> Z.abs s + zabs ys < B -> num (last (a :: scan_spec fadd a ys) (w0 w)) (s + zsum ys)).
    { induction ys as [|y ys IH]; intros a s Gy Na Hs; cbn [scan_spec zsum zabs fold_right] in *; [cbn; now rewrite Z.add_0_r|]. fold (zsum ys). fold (zabs ys) in Hs.
      pose proof (zabs_bound ys). change (num (last (fadd a y :: scan_spec fadd (fadd a y) ys) (w0 w)) (s + (fvalue y + zsum ys))). rewrite Z.add_assoc. apply IH; [intros; apply Gy; now right| |lia].
      apply num_add; [exact Na|apply Gy; now left|lia]. }
    apply X; [intros; apply G; now right|apply G; now left|exact H].
  Qed.
  Lemma good_app xs ys : good (xs ++ ys) -> good xs /\ good ys.
  Proof using.
    intros (G & H). rewrite zabs_app in H. pose proof (zabs_bound xs). pose proof (zabs_bound ys). split; (split; [intros; apply G, in_or_app; auto|lia]).
  Qed.
  Lemma carry x xs y ys (v := last (partial_sum_spec fadd (x :: xs)) (w0 _)) : good ((x :: xs) ++ y :: ys) -> good (fadd y v :: ys) /\ fadd y v = fadd v y.
  Proof using Hw K KT.
    intros H. destruct (good_app _ _ H) as (H0 & H1). pose proof (last_sum x xs H0) as V. fold v in V. destruct H as (G & H). rewrite zabs_app in H. cbn [zabs fold_right] in H. fold (zabs ys) in H.
    pose proof (zabs_bound (x :: xs)) as Bx. cbn [zabs fold_right] in Bx. pose proof (zabs_bound ys). assert (Y : num y (fvalue y)) by (apply G, in_or_app; right; now left).
    assert (D : Z.abs (fvalue y + zsum (x :: xs)) < B) by lia. pose proof (num_add _ _ _ _ Y V D) as E. split.
    - split; [intros z [<-|Hz]|].
      + apply num_to with (1 := E). symmetry. apply E.
      + apply G, in_or_app. right. now right.
      + cbn [zabs fold_right]. fold (zabs ys). rewrite (proj1 (proj2 E)). lia.
    - apply (num_eq _ _ _ E). eapply num_to; [apply num_add; [exact V|exact Y|lia]|lia].
  Qed.
End Sum.

Section FBuild.
  Context (b : build) (e : etype) (F : is_integer e = false).
  Let Hw : fp_width (esize e) := float_fp e F.
  Let W := b_native b e.
  Context (k : Z) (K : 0 <= k) (KT : mant_bits (esize e) + 1 + k <= top_exp (esize e)).
  Lemma sse_psum ssse3 xs : sse_native (esize e) (length xs) = true -> good k xs -> n_partial_sum (sse_build ssse3 e fadd) xs = partial_sum_spec fadd xs.
  Proof using F K KT.
    clear W b. intros N G. cbn [n_partial_sum sse_build sse_ops]. unfold sse_native in N. destruct (Nat.eqb_spec (@length (elt e) xs) 1) as [E|E].
    - destruct xs as [|x [|y xs]]; try discriminate E. reflexivity.
    - apply orb_true_iff in N as [N|N]; [apply Nat.eqb_eq in N; contradiction|]. apply Nat.eqb_eq in N. unfold sse_partial_sum.
      assert (S : forall ys j, length ys = (16 / esize e)%nat -> map2 fadd ys (of_reg (esize e) dec (sse_shifted 0 (esize e) (to_reg enc ys) (- j))) = shift_add (w0 (esize e)) fadd j ys).
      { intros ys j L. unfold shift_add. f_equal. apply vec_shifted; auto; [apply esize_ok|intros; apply enc_length|intros; apply dec_enc|apply enc_w0]. }
      clear E. clear Hw. destruct e; try discriminate F; cbn [esize] in *.
      + change (16 / 4)%nat with 4%nat in *. cbn [Nat.ltb Nat.leb]. destruct xs as [|x0 [|x1 [|x2 [|x3 [|x4 xs]]]]]; try discriminate N.
        rewrite (S _ 1) by reflexivity. rewrite (S _ 2) by (rewrite shift_add_len; reflexivity). apply (good4 (or_introl eq_refl) k K KT); exact G.
      + change (16 / 8)%nat with 2%nat in *. cbn [Nat.ltb Nat.leb]. destruct xs as [|x0 [|x1 [|x2 xs]]]; try discriminate N.
        rewrite (S _ 1) by reflexivity. apply (good2 (or_intror eq_refl) k K KT); exact G.
  Qed.
  Lemma avx_psum avx2 c xs : avx_widths_of avx2 e (length xs) = true -> good k xs -> n_partial_sum (avx_build avx2 c e fadd) xs = partial_sum_spec fadd xs.
  Proof using F K KT.
    clear W b. intros N G. assert (A : has256 avx2 e = true) by (destruct e, avx2; try discriminate F; reflexivity).
    unfold avx_build, avx_build_undef. rewrite A. cbn [n_partial_sum avx_ops].
    destruct (awidth_cases _ _ _ N) as [[E L]|[E L]]; unfold elt in E |- *; rewrite E; [|now apply (sse_psum true)]. unfold avx_partial_sum.
    assert (S : forall ys j, length ys = (32 / esize e)%nat -> map2 fadd ys (of_ymm (esize e) dec (avx_shifted 0 (repeat 0 16) (esize e) (to_ymm (esize e) enc ys) (- j))) = shift_add (w0 (esize e)) fadd j ys).
    { intros ys j L'. unfold shift_add. f_equal. apply yvec_shifted; auto; [apply esize_ok|intros; apply enc_length|intros; apply dec_enc|apply enc_w0]. }
    clear E N A. clear Hw. destruct e; try discriminate F; cbn [esize] in *.
    + change (32 / 4)%nat with 8%nat in *. cbn [Nat.ltb Nat.leb]. destruct xs as [|x0 [|x1 [|x2 [|x3 [|x4 [|x5 [|x6 [|x7 [|x8 xs]]]]]]]]]; try discriminate L.
      rewrite (S _ 1) by reflexivity. rewrite (S _ 2) by (rewrite shift_add_len; reflexivity). rewrite (S _ 4) by (rewrite !shift_add_len; reflexivity). apply (good8 (or_introl eq_refl) k K KT); exact G.
    + change (32 / 8)%nat with 4%nat in *. cbn [Nat.ltb Nat.leb]. destruct xs as [|x0 [|x1 [|x2 [|x3 [|x4 xs]]]]]; try discriminate L.
      rewrite (S _ 1) by reflexivity. rewrite (S _ 2) by (rewrite shift_add_len; reflexivity). apply (good4 (or_intror eq_refl) k K KT); exact G.
  Qed.
  Lemma leaf_psum xs : W (length xs) = true -> good k xs -> n_partial_sum (b_fmoves b e) xs = partial_sum_spec fadd xs.
  Proof using F K KT.
    unfold W, b_native, b_fmoves. destruct (b_impl b) as [|s|avx2 g]; cbn [div_native]; intros N G; [now apply (scalar_partial_sum _ (w0 (esize e)) fadd)|now apply sse_psum|now apply avx_psum].
  Qed.
  Lemma psum_app {A} add (xs ys : list A) d y : xs <> [] -> add y (last (partial_sum_spec add xs) d) = add (last (partial_sum_spec add xs) d) y ->
    partial_sum_spec add (xs ++ y :: ys) = partial_sum_spec add xs ++ partial_sum_spec add (add y (last (partial_sum_spec add xs) d) :: ys).
  Proof using.
    intros NE C. rewrite C. destruct xs as [|x xs]; [congruence|]. cbn [app partial_sum_spec]. f_equal. rewrite scan_app. f_equal. cbn [scan_spec].
    assert (E : last (x :: scan_spec add x xs) d = last (scan_spec add x xs) x).
    { destruct (scan_spec add x xs) as [|s l] eqn:Q; [reflexivity|]. cbn [last]. change (last (s :: l) d = last (s :: l) x). apply last_indep. congruence. }
    cbn [partial_sum_spec] in E. rewrite E. reflexivity.
  Qed.
  Lemma psum_yields : forall fuel n t, wf W n t -> (n < fuel)%nat -> good k (to_list t) ->
    exists r, partial_sum_f (b_fmoves b e) (w0 _) fadd fuel t = Some r /\ wf W n r /\ to_list r = partial_sum_spec fadd (to_list t).
  Proof using F K KT.
    pose proof (Ww b e) as WW. induction fuel as [|fuel IH]; intros n t Wt HF G; [lia|]. pose proof (wf_size W WW _ _ Wt) as (S1 & S2 & S3).
    destruct t as [xs|d0 d1]; cbn [partial_sum_f to_list] in *.
    - inversion Wt as [n' xs' N L|]; subst n' xs' n. pose proof (leaf_psum xs N G) as LP. unfold elt in LP |- *. rewrite LP.
      eexists. split; [reflexivity|]. split; [|reflexivity]. constructor; auto. apply partial_sum_length.
    - inversion Wt as [|n' l r E W0 W1]; subst n' l r. pose proof (not_native_ge2 W WW n S3 E) as H2. destruct (right_left n H2) as [R1 R2].
      destruct (good_app k _ _ G) as (G0 & G1).
      destruct (IH _ d0 W0 ltac:(lia) G0) as (p0 & P0 & Wp0 & Lp0). unfold elt in P0 |- *. rewrite P0. cbn [obind].
      pose proof (wf_size W WW _ _ W0) as (_ & L0 & Q0). pose proof (wf_size W WW _ _ W1) as (_ & L1 & Q1).
      pose proof (wf_isz W WW _ _ W0) as I0. unfold elt in I0. rewrite I0.
      pose proof (get_ok W (w0 (esize e)) WW _ p0 (Z.of_nat (left_size n) - 1) Wp0 ltac:(lia)) as GT. unfold elt in GT. rewrite GT. cbn [obind].
      destruct (to_list d0) as [|x xs] eqn:D0; [cbn in L0; lia|]. destruct (to_list d1) as [|y ys] eqn:D1; [cbn in L1; lia|].
      assert (V : znth (w0 (esize e)) (to_list p0) (Z.of_nat (left_size n) - 1) = last (partial_sum_spec fadd (x :: xs)) (w0 _)).
      { unfold elt in Lp0 |- *. rewrite Lp0. rewrite <- L0, <- (partial_sum_length _ fadd (x :: xs)). apply last_znth. discriminate. }
      unfold elt in V. rewrite V. set (v := last (partial_sum_spec fadd (x :: xs)) (w0 (esize e))). destruct (carry Hw k K KT x xs y ys G) as (C1 & C2). fold v in C1, C2.
      pose proof (add_first_list W WW fadd v _ _ W1) as AL. unfold elt in AL, D1. rewrite D1 in AL.
      destruct (IH _ (add_first fadd v d1) (add_first_wf W fadd v _ _ W1) ltac:(lia)) as (p1 & P1 & Wp1 & Lp1).
      { unfold elt. rewrite AL. exact C1. }
      unfold elt in P1 |- *. rewrite P1. cbn [obind]. eexists. split; [reflexivity|]. split; [now constructor|].
      cbn [to_list]. unfold elt in Lp0, Lp1 |- *. rewrite Lp0, Lp1, AL. symmetry. apply (psum_app fadd (x :: xs) ys (w0 (esize e)) y); [discriminate|exact C2].
  Qed.
  Lemma psum_ok n t : wf W n t -> good k (to_list t) -> exists r, b_fpartial_sum b e t = Some r /\ wf W n r /\ to_list r = partial_sum_spec fadd (to_list t).
  Proof using F K KT. intros Wt G. apply psum_yields; auto. pose proof (wf_sz W (Ww b e) _ _ Wt) as S. unfold elt in S |- *. rewrite S. lia. Qed.
End FBuild.

Lemma exact_good {w} (Hw : fp_width w) (xs : list (word w)) : sums_exact xs = true -> existsb (fun x => sign_bit x && (fvalue x =? 0)) xs = false ->
  exists k, 0 <= k /\ mant_bits w + 1 + k <= top_exp w /\ good k xs.
Proof.
  intros S N. destruct (exact_fits Hw xs S) as (k & K & KT & G & H). exists k. split; [exact K|]. split; [exact KT|]. split; [|exact H].
  intros x I. rewrite Forall_forall in G. split; [now apply G|]. split; [reflexivity|]. unfold nz. rewrite <- (sign_bit_neg Hw). destruct (sign_bit x && (fvalue x =? 0)) eqn:Q; [|reflexivity].
  rewrite <- N. symmetry. apply existsb_exists. eauto.
Qed.

(** the values of the partial sums *)
Lemma psum_values {w} (Hw : fp_width w) k (K : 0 <= k) (KT : mant_bits w + 1 + k <= top_exp w) (xs : list (word w)) : good k xs ->
  forall i, (i < length xs)%nat -> is_Finite (nth i (partial_sum_spec fadd xs) (w0 _)) = true /\ fvalue (nth i (partial_sum_spec fadd xs) (w0 _)) = zsum (firstn (S i) xs).
Proof.
  assert (X : forall ys a s i, (forall y, In y ys -> num k y (fvalue y)) -> num k a s -> Z.abs s + zabs ys < 2 ^ (mant_bits w + 1 + k) -> (i <= length ys)%nat ->
    num k (nth i (a :: scan_spec fadd a ys) (w0 w)) (s + zsum (firstn i ys))).
  { induction ys as [|y ys IH]; intros a s i Gy Na Hs Hi.
    - destruct i; [|cbn in Hi; lia]. cbn. now rewrite Z.add_0_r.
    - destruct i as [|i]; [cbn; now rewrite Z.add_0_r|]. cbn [zabs fold_right] in Hs. fold (zabs ys) in Hs. pose proof (zabs_bound ys).
      change (num k (nth i (fadd a y :: scan_spec fadd (fadd a y) ys) (w0 w)) (s + (fvalue y + zsum (firstn i ys)))). rewrite Z.add_assoc.
      apply IH; [intros; apply Gy; now right| |lia|cbn in Hi; lia]. apply (num_add Hw k K KT); [exact Na|apply Gy; now left|lia]. }
  intros (G & H) i Hi. destruct xs as [|x xs]; [cbn in Hi; lia|]. cbn [partial_sum_spec length] in *. cbn [zabs fold_right] in H. fold (zabs xs) in H.
  destruct (X xs x (fvalue x) i) as ((F & _) & V & _); [intros; apply G; now right|apply G; now left|exact H|lia|]. split; [exact F|exact V].
Qed.
