(** mathematical functions of SimdArray (proofs). *)
From Coq Require Import ZArith List Bool Lia.
From Verif.Spec Require Import Seq FloatSpec RoundSpec CastSpec MathSpec ScalarSpec.
From Verif.Model Require Import Word Fp FpArith SseReg SseMove SortNet SseInt SseBuild SseArith SseMask SimdArray SimdArrayOps Mem SseConvert SseMath
  AvxReg AvxMove AvxBuild AvxShuffle AvxMask AvxArith AvxConvert AvxMath ScalarVec ScalarMath ArrayMath.
Import ListNotations.
Local Open Scope Z_scope.
From Verif.Proof Require Import WordP SseMoveP SseIntP SseEmulP SseArithP SseMaskP FpP FpArithP FpIntP ConvertP ConvertRegP SimdArrayOpsP MathP MathMain
  AvxMaskP AvxShuffleP AvxArithP AvxMathP AvxMathMain ScalarMathP ScalarMathMain.

Lemma Forall2_length {A B} (R : A -> B -> Prop) xs ys : Forall2 R xs ys -> length xs = length ys.
Proof. intros H. induction H; cbn; auto. Qed.
Section Trees.
  Context (native : nat -> bool).
  Lemma op1_ok {A B} (f : list A -> list B) (R : A -> B -> Prop) :
    (forall xs, native (length xs) = true -> Forall2 R xs (f xs)) ->
    forall n t, wf native n t -> wf native n (op1 f t) /\ Forall2 R (to_list t) (to_list (op1 f t)).
  Proof.
    intros F n t W. induction W as [n xs N L|n l r N Wl IHl Wr IHr]; cbn [op1 to_list].
    - subst n. specialize (F xs N). split; [apply wf_leaf; [exact N|symmetry; eapply Forall2_length; exact F]|exact F].
    - destruct IHl as (A1 & A2), IHr as (B1 & B2). split; [apply wf_node; auto|]. now apply Forall2_app.
  Qed.
  Lemma combine_app {A B} (a c : list A) (b d : list B) : length a = length b -> combine (a ++ c) (b ++ d) = combine a b ++ combine c d.
  Proof. revert b. induction a as [|x a IH]; intros [|y b] L; try discriminate L; cbn; [reflexivity|]. f_equal. apply IH. now injection L. Qed.
  Lemma wf_same {A B} n (t : sa A) (u : sa B) : wf native n t -> wf native n u -> size t = size u.
  Proof.
    intros W. revert u. induction W as [n xs N L|n l r N Wl IHl Wr IHr]; intros u Wu; inversion Wu as [n' ys N' L'|n' l' r' N' Wl' Wr']; subst; try congruence; cbn [size]; [symmetry; assumption|].
    rewrite (IHl l'), (IHr r') by assumption; reflexivity.
  Qed.
  Lemma to_list_len {A} (t : sa A) : length (to_list t) = size t.
  Proof. induction t; cbn; [reflexivity|]. rewrite app_length. congruence. Qed.
  Lemma op2_ok {A B C} (f : list A -> list B -> list C) (R : A * B -> C -> Prop) :
    (forall xs ys, native (length xs) = true -> length ys = length xs -> Forall2 R (combine xs ys) (f xs ys)) ->
    forall n t u, wf native n t -> wf native n u -> exists r, op2 f t u = Some r /\ wf native n r /\ Forall2 R (combine (to_list t) (to_list u)) (to_list r).
  Proof.
    intros F n t u W. revert u. induction W as [n xs N L|n l r N Wl IHl Wr IHr]; intros u Wu; inversion Wu as [n' ys N' L'|n' l' r' N' Wl' Wr']; subst; try congruence; cbn [op2].
    - eexists. split; [reflexivity|]. cbn [to_list]. assert (G : Forall2 R (combine xs ys) (f xs ys)) by (apply F; auto). split; [|exact G].
      apply wf_leaf; auto. apply Forall2_length in G. rewrite combine_length in G. lia.
    - destruct (IHl l' Wl') as (a & -> & A1 & A2). destruct (IHr r' Wr') as (c & -> & B1 & B2). cbn [obind]. eexists. split; [reflexivity|]. split; [apply wf_node; auto|].
      cbn [to_list]. rewrite combine_app by (rewrite !to_list_len; now apply (wf_same _ _ _ Wl)). now apply Forall2_app.
  Qed.
  Lemma op3_ok {A B C D} (f : list A -> list B -> list C -> list D) (R : A * (B * C) -> D -> Prop) :
    (forall xs ys zs, native (length xs) = true -> length ys = length xs -> length zs = length xs -> Forall2 R (combine xs (combine ys zs)) (f xs ys zs)) ->
    forall n t u v, wf native n t -> wf native n u -> wf native n v ->
      exists r, op3 f t u v = Some r /\ wf native n r /\ Forall2 R (combine (to_list t) (combine (to_list u) (to_list v))) (to_list r).
  Proof.
    intros F n t u v W. revert u v. induction W as [n xs N L|n l r N Wl IHl Wr IHr]; intros u v Wu Wv; inversion Wu as [n' ys N' L'|n' l' r' N' Wl' Wr']; inversion Wv as [n2 zs N2 L2|n2 l2 r2 N2 Wl2 Wr2]; subst; try congruence; cbn [op3].
    - eexists. split; [reflexivity|]. cbn [to_list]. assert (G : Forall2 R (combine xs (combine ys zs)) (f xs ys zs)) by (apply F; auto). split; [|exact G].
      apply wf_leaf; auto. apply Forall2_length in G. rewrite !combine_length in G. lia.
    - destruct (IHl l' l2 Wl' Wl2) as (a & -> & A1 & A2). destruct (IHr r' r2 Wr' Wr2) as (c & -> & B1 & B2). cbn [obind]. eexists. split; [reflexivity|]. split; [apply wf_node; auto|].
      pose proof (wf_same _ _ _ Wl Wl') as E1. pose proof (wf_same _ _ _ Wl Wl2) as E2.
      cbn [to_list]. rewrite combine_app by (rewrite !to_list_len; congruence). rewrite combine_app by (rewrite combine_length, !to_list_len; lia). now apply Forall2_app.
  Qed.
End Trees.

Lemma leaf_cases b w k : w = 4%nat \/ w = 8%nat -> math_native b w k = true ->
  k = 1%nat \/ (k <> 1%nat /\ k = (16 / w)%nat /\ b <> MScalar) \/ (k <> 1%nat /\ k <> (16 / w)%nat /\ k = (32 / w)%nat /\ b = MAvx).
Proof.
  intros Hw N. destruct b; unfold math_native, scalar_native, avx_native, sse_native in N.
  - apply Nat.eqb_eq in N. auto.
  - apply orb_prop in N. destruct N as [N|N]; apply Nat.eqb_eq in N; [auto|]. right; left. subst k. split; [|split; [reflexivity|congruence]]. destruct Hw as [->| ->]; discriminate.
  - apply orb_prop in N. destruct N as [N|N]; [apply orb_prop in N; destruct N as [N|N]|]; apply Nat.eqb_eq in N; [auto| |].
    + right; left. subst k. split; [|split; [reflexivity|congruence]]. destruct Hw as [->| ->]; discriminate.
    + right; right. subst k. repeat split; destruct Hw as [->| ->]; discriminate.
Qed.
Lemma leaf1_ok b w (Hw : w = 4%nat \/ w = 8%nat) s v y (R : word w -> word w -> Prop) :
  (forall x, R x (s x)) ->
  (forall xs, b <> MScalar -> length xs = (16 / w)%nat -> Forall2 R xs (lanes w (v (has_sse41 b) (pack xs)))) ->
  (forall xs, b = MAvx -> length xs = (32 / w)%nat -> Forall2 R xs (ylanes w (y (ypack xs)))) ->
  forall xs, math_native b w (length xs) = true -> Forall2 R xs (leaf1 b w s v y xs).
Proof.
  intros S V Y xs N. unfold leaf1. destruct (leaf_cases b w _ Hw N) as [E|[(N1 & E & B)|(N1 & N2 & E & B)]].
  - rewrite E. cbn [Nat.eqb]. now apply forall2_map.
  - rewrite (proj2 (Nat.eqb_neq _ _) N1), (proj2 (Nat.eqb_eq _ _) E). auto.
  - rewrite (proj2 (Nat.eqb_neq _ _) N1), (proj2 (Nat.eqb_neq _ _) N2). auto.
Qed.
Lemma leaf_mask_ok b w (Hw : w = 4%nat \/ w = 8%nat) s v y (q : word w -> bool) :
  (forall x, s x = q x) ->
  (forall xs, b <> MScalar -> length xs = (16 / w)%nat -> v (has_sse41 b) (pack xs) = mask_reg w (map q xs)) ->
  (forall xs, b = MAvx -> length xs = (32 / w)%nat -> y (ypack xs) = ymask_reg w (map q xs)) ->
  forall xs, math_native b w (length xs) = true -> Forall2 (fun x m => m = q x) xs (leaf_mask b w s v y xs).
Proof.
  intros S V Y xs N. assert (G : leaf_mask b w s v y xs = map q xs).
  { unfold leaf_mask. destruct (leaf_cases b w _ Hw N) as [E|[(N1 & E & B)|(N1 & N2 & E & B)]].
    - rewrite E. cbn [Nat.eqb]. now apply map_ext.
    - rewrite (proj2 (Nat.eqb_neq _ _) N1), (proj2 (Nat.eqb_eq _ _) E), V by auto. apply sign_lanes; [now apply fp_w|now rewrite map_length].
    - rewrite (proj2 (Nat.eqb_neq _ _) N1), (proj2 (Nat.eqb_neq _ _) N2), Y by auto. apply ysign_lanes; [now apply fp_w|now rewrite map_length]. }
  rewrite G. now apply forall2_map.
Qed.
Lemma leaf2_ok b w (Hw : w = 4%nat \/ w = 8%nat) s v y (R : word w * word w -> word w -> Prop) :
  (forall x y, R (x, y) (s x y)) ->
  (forall xs ys, b <> MScalar -> length xs = (16 / w)%nat -> length ys = (16 / w)%nat -> Forall2 R (combine xs ys) (lanes w (v (has_sse41 b) (pack xs) (pack ys)))) ->
  (forall xs ys, b = MAvx -> length xs = (32 / w)%nat -> length ys = (32 / w)%nat -> Forall2 R (combine xs ys) (ylanes w (y (ypack xs) (ypack ys)))) ->
  forall xs ys, math_native b w (length xs) = true -> length ys = length xs -> Forall2 R (combine xs ys) (leaf2 b w s v y xs ys).
Proof.
  intros S V Y xs ys N L. unfold leaf2. destruct (leaf_cases b w _ Hw N) as [E|[(N1 & E & B)|(N1 & N2 & E & B)]].
  - rewrite E. cbn [Nat.eqb]. destruct xs as [|x [|]], ys as [|z [|]]; try discriminate L; try discriminate E. cbn. constructor; auto.
  - rewrite (proj2 (Nat.eqb_neq _ _) N1), (proj2 (Nat.eqb_eq _ _) E). apply V; congruence.
  - rewrite (proj2 (Nat.eqb_neq _ _) N1), (proj2 (Nat.eqb_neq _ _) N2). apply Y; congruence.
Qed.
Lemma leaf3_ok b w (Hw : w = 4%nat \/ w = 8%nat) s v y (R : word w * (word w * word w) -> word w -> Prop) :
  (forall x y z, R (x, (y, z)) (s x y z)) ->
  (forall xs ys zs, b <> MScalar -> length xs = (16 / w)%nat -> length ys = (16 / w)%nat -> length zs = (16 / w)%nat -> Forall2 R (combine xs (combine ys zs)) (lanes w (v (has_sse41 b) (pack xs) (pack ys) (pack zs)))) ->
  (forall xs ys zs, b = MAvx -> length xs = (32 / w)%nat -> length ys = (32 / w)%nat -> length zs = (32 / w)%nat -> Forall2 R (combine xs (combine ys zs)) (ylanes w (y (ypack xs) (ypack ys) (ypack zs)))) ->
  forall xs ys zs, math_native b w (length xs) = true -> length ys = length xs -> length zs = length xs -> Forall2 R (combine xs (combine ys zs)) (leaf3 b w s v y xs ys zs).
Proof.
  intros S V Y xs ys zs N L L2. unfold leaf3. destruct (leaf_cases b w _ Hw N) as [E|[(N1 & E & B)|(N1 & N2 & E & B)]].
  - rewrite E. cbn [Nat.eqb]. destruct xs as [|x [|]], ys as [|z [|]], zs as [|z' [|]]; try discriminate L; try discriminate L2; try discriminate E. cbn. constructor; auto.
  - rewrite (proj2 (Nat.eqb_neq _ _) N1), (proj2 (Nat.eqb_eq _ _) E). apply V; congruence.
  - rewrite (proj2 (Nat.eqb_neq _ _) N1), (proj2 (Nat.eqb_neq _ _) N2). apply Y; congruence.
Qed.
Lemma min_lanes w (Hw : w = 4%nat \/ w = 8%nat) k (xs ys : list (word w)) : length xs = (16 / w)%nat -> length ys = (16 / w)%nat ->
  lanes w (v_min k (fp_type w) (pack xs) (pack ys)) = map2 mm_fmin xs ys /\ lanes w (v_max k (fp_type w) (pack xs) (pack ys)) = map2 mm_fmax xs ys.
Proof.
  intros Lx Ly. assert (Lm : forall f : word w -> word w -> word w, length (map2 f xs ys) = (16 / w)%nat) by (intros; rewrite map2_length, Lx, Ly; apply Nat.min_id).
  destruct Hw as [->| ->]; unfold fp_type, v_min, v_max, mm_min_fp, mm_max_fp; rewrite !lift2_pack, !lanes_pack by auto; auto.
Qed.
Lemma ymin_lanes w (Hw : w = 4%nat \/ w = 8%nat) (xs ys : list (word w)) : length xs = (32 / w)%nat -> length ys = (32 / w)%nat ->
  ylanes w (y_min (fp_type w) (ypack xs) (ypack ys)) = map2 mm_fmin xs ys /\ ylanes w (y_max (fp_type w) (ypack xs) (ypack ys)) = map2 mm_fmax xs ys.
Proof.
  intros Lx Ly. destruct (split_halves xs (fp_w w Hw) Lx) as (l & h & -> & Ll & Lh & ->). destruct (split_halves ys (fp_w w Hw) Ly) as (l' & h' & -> & Ll' & Lh' & ->).
  unfold y_min, y_max, ymap2. rewrite !ylanes_halves. cbn [lo128 hi128]. rewrite !map2_app by congruence.
  destruct (min_lanes w Hw true l l' Ll Ll') as (-> & ->). destruct (min_lanes w Hw true h h' Lh Lh') as (-> & ->). auto.
Qed.
Lemma fmin_is {w} (Hw : w = 4%nat \/ w = 8%nat) (x y : word w) : is_NaN x = false -> is_NaN y = false -> is_min x y (mm_fmin x y) /\ is_max x y (mm_fmax x y).
Proof.
  intros Nx Ny. unfold mm_fmin, mm_fmax, is_min, is_max. rewrite !(flt_ok Hw). unfold float_lt, ordered. rewrite Nx, Ny. cbn [negb andb].
  destruct (Z.ltb_spec (fvalue y) (fvalue x)), (Z.ltb_spec (fvalue x) (fvalue y)); repeat split; auto; lia.
Qed.
Lemma forall2_map2 {A B C} (f : A -> B -> C) (R : A * B -> C -> Prop) : (forall x y, R (x, y) (f x y)) -> forall xs ys, Forall2 R (combine xs ys) (map2 f xs ys).
Proof. intros H xs. induction xs as [|x xs IH]; intros [|y ys]; cbn; constructor; auto. Qed.
Lemma generated b w n (f : Z -> word w) : w = 4%nat \/ w = 8%nat -> (1 <= n)%nat -> wf (math_native b w) n (generate (math_native b w) n f).
Proof. intros Hw L. apply SimdArrayMain.C04_generate_main; auto. split; [destruct b; reflexivity|]. intros k N.
  destruct (leaf_cases b w k Hw N) as [->|[(_ & -> & _)|(_ & _ & -> & _)]]; [exists 0%nat; reflexivity| |];
    destruct Hw as [->| ->]; [exists 2%nat|exists 1%nat|exists 3%nat|exists 2%nat]; reflexivity. Qed.

Lemma C69_rounding_main :
  forall b w n (t : sa (word w)), w = 4%nat \/ w = 8%nat -> b <> MSse false -> wf (math_native b w) n t ->
    let ok R (x y : word w) := rounded_value R x y /\ (is_Finite x = true -> sign_bit y = sign_bit x) in
    Forall2 (ok is_trunc) (to_list t) (to_list (a_trunc b w t)) /\
    Forall2 (ok is_floor) (to_list t) (to_list (a_floor b w t)) /\
    Forall2 (ok is_ceil) (to_list t) (to_list (a_ceil b w t)).
Proof.
  intros b w n t Hw NB W ok. assert (SB : b <> MScalar -> has_sse41 b = true) by (destruct b as [|[]|]; cbn; congruence).
  split; [|split]; apply (op1_ok (math_native b w)) with (n := n); auto; apply leaf1_ok; auto; intros x; try (intros B L; rewrite (SB B)).
  - apply C36_scalar_main; auto.
  - apply C36_sse41_main; auto.
  - intros _ L. apply C36_avx_main; auto.
  - apply C36_scalar_main; auto.
  - apply C36_sse41_main; auto.
  - intros _ L. apply C36_avx_main; auto.
  - apply C36_scalar_main; auto.
  - apply C36_sse41_main; auto.
  - intros _ L. apply C36_avx_main; auto.
Qed.

Lemma C69_rounding_sse2_main :
  forall n (t : sa (word 4)), wf (math_native (MSse false) 4) n t ->
    Forall2 (rounded_value is_trunc) (to_list t) (to_list (a_trunc (MSse false) 4 t)) /\
    Forall2 (rounded_value is_floor) (to_list t) (to_list (a_floor (MSse false) 4 t)) /\
    Forall2 (rounded_value is_ceil) (to_list t) (to_list (a_ceil (MSse false) 4 t)).
Proof.
  intros n t W. assert (Hw : 4%nat = 4%nat \/ 4%nat = 8%nat) by auto.
  split; [|split]; apply (op1_ok (math_native (MSse false) 4)) with (n := n); auto; apply leaf1_ok; auto; intros x; try discriminate; try (intros B L; cbn [has_sse41]).
  - apply (C36_scalar_main 4 x Hw).
  - apply C36_sse2_float_main; auto.
  - apply (C36_scalar_main 4 x Hw).
  - apply C36_sse2_float_main; auto.
  - apply (C36_scalar_main 4 x Hw).
  - apply C36_sse2_float_main; auto.
Qed.

Lemma C69_abs_copysign_main :
  forall b w n (t u : sa (word w)), w = 4%nat \/ w = 8%nat -> wf (math_native b w) n t -> wf (math_native b w) n u ->
    Forall2 (fun x y => same_magnitude x y /\ sign_bit y = false) (to_list t) (to_list (a_abs b w t)) /\
    exists r, a_copysign b w t u = Some r /\ wf (math_native b w) n r /\
      Forall2 (fun xy z => same_magnitude (fst xy) z /\ sign_bit z = sign_bit (snd xy)) (combine (to_list t) (to_list u)) (to_list r).
Proof.
  intros b w n t u Hw Wt Wu. split.
  - apply (op1_ok (math_native b w)) with (n := n); auto. apply leaf1_ok; auto.
    + intros x. apply (C38_scalar_main w x x Hw).
    + intros xs _ L. apply (C38_abs_copysign_main w xs xs); auto.
    + intros xs _ L. apply (C38_avx_abs_copysign_main w xs xs); auto.
  - apply (op2_ok (math_native b w)); auto. apply leaf2_ok; auto.
    + intros x y. cbn [fst snd]. apply (C38_scalar_main w x y Hw).
    + intros xs ys _ Lx Ly. apply (C38_abs_copysign_main w xs ys); auto.
    + intros xs ys _ Lx Ly. apply (C38_avx_abs_copysign_main w xs ys); auto.
Qed.

Lemma C69_classification_main :
  forall b w n (t : sa (word w)), w = 4%nat \/ w = 8%nat -> wf (math_native b w) n t ->
    to_list (a_isfinite b w t) = map is_Finite (to_list t) /\ to_list (a_isinf b w t) = map is_Inf (to_list t) /\
    to_list (a_isnan b w t) = map is_NaN (to_list t) /\ to_list (a_isnegative b w t) = map sign_bit (to_list t).
Proof.
  intros b w n t Hw W. assert (G : forall (q : word w -> bool) xs ms, Forall2 (fun x m => m = q x) xs ms -> ms = map q xs).
  { intros q xs ms H. induction H as [|x m xs ms E H IH]; cbn; [reflexivity|]. now rewrite E, <- IH. }
  split; [|split; [|split]]; apply G; apply (op1_ok (math_native b w)) with (n := n); auto; apply leaf_mask_ok; auto; intros x.
  - apply (C38_scalar_main w x x Hw).
  - intros _ L. apply isfinite_pack; auto.
  - intros _ L. apply y_isfinite_ok; auto.
  - apply (C38_scalar_main w x x Hw).
  - intros _ L. apply isinf_pack; auto.
  - intros _ L. apply y_isinf_ok; auto.
  - apply (C38_scalar_main w x x Hw).
  - intros _ L. apply isnan_pack; auto.
  - intros _ L. apply y_isnan_ok; auto.
  - now apply C38_scalar_isnegative_main.
  - intros _ L. apply isnegative_pack; auto.
  - intros _ L. apply y_isnegative_ok; auto.
Qed.

Lemma C69_round_partial_main :
  (forall b w n (t : sa (word w)), w = 4%nat \/ w = 8%nat -> b <> MSse false -> wf (math_native b w) n t ->
     Forall2 (fun x y => x <> just_below_half w -> (forall z, ~ large_odd x z) -> rounded_value is_round x y) (to_list t) (to_list (a_round b w t))) /\
  (forall w n (t : sa (word w)), w = 4%nat \/ w = 8%nat -> wf (math_native (MSse false) w) n t ->
     Forall2 (fun x y => is_Finite x = true -> - 2 ^ 31 * fone w <= fvalue x <= (2 ^ 31 - 1) * fone w -> x <> just_below_half w -> (forall z, ~ large_odd x z) ->
                         exists z, is_round (fvalue x) (fone w) z /\ has_value y z) (to_list t) (to_list (a_round (MSse false) w t))).
Proof.
  assert (IMP : forall {A B} (P Q : A -> B -> Prop), (forall x y, P x y -> Q x y) -> forall xs ys, Forall2 P xs ys -> Forall2 Q xs ys).
  { intros A B P Q I xs ys H. induction H; constructor; auto. }
  split.
  - intros b w n t Hw NB W. assert (SB : b <> MScalar -> has_sse41 b = true) by (destruct b as [|[]|]; cbn; congruence).
    apply (op1_ok (math_native b w)) with (n := n); auto. apply leaf1_ok; auto.
    + intros x. apply C36_scalar_round_partial_main; auto.
    + intros xs B L. rewrite (SB B). destruct (C36_sse41_main w xs Hw L) as (_ & _ & _ & R). revert R. apply IMP. intros x y (R & _) _ _. exact R.
    + intros xs B L. destruct (C36_avx_main w xs Hw L) as (_ & _ & _ & R). revert R. apply IMP. intros x y (R & _) _ _. exact R.
  - intros w n t Hw W. apply (op1_ok (math_native (MSse false) w)) with (n := n); auto. apply leaf1_ok; auto; try discriminate.
    + intros x F _ N1 N2. apply (C36_scalar_round_partial_main w x Hw N1 N2). exact F.
    + intros xs B L. cbn [has_sse41]. pose proof (C36_sse2_round_partial_main w xs Hw L) as R. revert R. apply IMP. intros x y R F B1 _ _. auto.
Qed.

Lemma C69_round_refuted_main :
  forall b, b = MSse true \/ b = MAvx ->
    let rounded x := map fvalue (to_list (a_round b 4 (generate (math_native b 4) 5 (fun _ => x)))) in
    rounded (just_below_half 4) = [0; 0; 0; 0; fone 4] /\
    exists x, has_value x (2 ^ 23 + 1) /\ rounded x = map (fun z => z * fone 4) [2 ^ 23 + 1; 2 ^ 23 + 1; 2 ^ 23 + 1; 2 ^ 23 + 1; 2 ^ 23 + 2].
Proof.
  intros b [-> | ->] rounded; (split; [vm_compute; reflexivity|]); exists (mkw 4 0x4b000001); (split; [split; vm_compute; reflexivity|vm_compute; reflexivity]).
Qed.

Lemma C69_minmax_partial_main :
  forall b w n (t u : sa (word w)), w = 4%nat \/ w = 8%nat -> wf (math_native b w) n t -> wf (math_native b w) n u ->
    exists lo hi, a_min b w t u = Some lo /\ a_max b w t u = Some hi /\ wf (math_native b w) n lo /\ wf (math_native b w) n hi /\
      Forall2 (fun xy r => is_NaN (fst xy) = false -> is_NaN (snd xy) = false -> is_min (fst xy) (snd xy) r) (combine (to_list t) (to_list u)) (to_list lo) /\
      Forall2 (fun xy r => is_NaN (fst xy) = false -> is_NaN (snd xy) = false -> is_max (fst xy) (snd xy) r) (combine (to_list t) (to_list u)) (to_list hi).
Proof.
  intros b w n t u Hw Wt Wu.
  assert (LO : exists r, a_min b w t u = Some r /\ wf (math_native b w) n r /\
    Forall2 (fun xy r => is_NaN (fst xy) = false -> is_NaN (snd xy) = false -> is_min (fst xy) (snd xy) r) (combine (to_list t) (to_list u)) (to_list r)).
  { apply (op2_ok (math_native b w)); auto. apply leaf2_ok; auto.
    - intros x y Nx Ny. cbn [fst snd] in *. now apply (C38_scalar_minmax_main w x y Hw).
    - intros xs ys _ Lx Ly. destruct (min_lanes w Hw (has_sse41 b) xs ys Lx Ly) as (-> & _). apply forall2_map2. intros x y Nx Ny. now apply fmin_is.
    - intros xs ys _ Lx Ly. destruct (ymin_lanes w Hw xs ys Lx Ly) as (-> & _). apply forall2_map2. intros x y Nx Ny. now apply fmin_is. }
  assert (HI : exists r, a_max b w t u = Some r /\ wf (math_native b w) n r /\
    Forall2 (fun xy r => is_NaN (fst xy) = false -> is_NaN (snd xy) = false -> is_max (fst xy) (snd xy) r) (combine (to_list t) (to_list u)) (to_list r)).
  { apply (op2_ok (math_native b w)); auto. apply leaf2_ok; auto.
    - intros x y Nx Ny. cbn [fst snd] in *. now apply (C38_scalar_minmax_main w x y Hw).
    - intros xs ys _ Lx Ly. destruct (min_lanes w Hw (has_sse41 b) xs ys Lx Ly) as (_ & ->). apply forall2_map2. intros x y Nx Ny. now apply fmin_is.
    - intros xs ys _ Lx Ly. destruct (ymin_lanes w Hw xs ys Lx Ly) as (_ & ->). apply forall2_map2. intros x y Nx Ny. now apply fmin_is. }
  destruct LO as (lo & L1 & L2 & L3), HI as (hi & H1 & H2 & H3). exists lo, hi. auto 10.
Qed.

Lemma C69_minmax_refuted_main :
  forall b, b <> MScalar ->
    let all5 x := generate (math_native b 4) 5 (fun _ => x) in
    exists nan one : word 4, is_NaN nan = true /\ has_value one 1 /\
      option_map to_list (a_min b 4 (all5 nan) (all5 one)) = Some [one; one; one; one; nan] /\
      option_map to_list (a_max b 4 (all5 nan) (all5 one)) = Some [one; one; one; one; nan] /\
      option_map to_list (a_min b 4 (all5 one) (all5 nan)) = Some [nan; nan; nan; nan; one] /\
      option_map to_list (a_max b 4 (all5 one) (all5 nan)) = Some [nan; nan; nan; nan; one].
Proof.
  intros b NB all5. exists (mkw 4 0x7fc00000), (mkw 4 0x3f800000). split; [reflexivity|]. split; [split; vm_compute; reflexivity|].
  assert (E : forall x, all5 x = Node (Leaf [x; x; x; x]) (Leaf [x])) by (intros x; destruct b; [congruence|reflexivity|reflexivity]). rewrite !E.
  assert (L4 : forall x : word 4, length [x; x; x; x] = (16 / 4)%nat) by reflexivity. assert (Hw : 4%nat = 4%nat \/ 4%nat = 8%nat) by auto.
  unfold a_min, a_max. cbn [op2 leaf2 length Nat.eqb obind option_map to_list app map2]. unfold leaf2. cbn [length Nat.eqb]. change (4 =? 16 / 4)%nat with true. cbv iota.
  repeat split; f_equal; match goal with |- context [v_min ?k _ (pack ?x) (pack ?y)] => destruct (min_lanes 4 Hw k x y (L4 _) (L4 _)) as (-> & _) | |- context [v_max ?k _ (pack ?x) (pack ?y)] => destruct (min_lanes 4 Hw k x y (L4 _) (L4 _)) as (_ & ->) end; reflexivity.
Qed.

Lemma C69_fma_partial_main :
  forall b n (t u v : sa (word 4)), wf (math_native b 4) n t -> wf (math_native b 4) n u -> wf (math_native b 4) n v ->
    exists r, a_fma4 b t u v = Some r /\ wf (math_native b 4) n r /\
      Forall2 (fun abc r => let '(a, (b, c)) := abc in is_Finite a = true -> is_Finite b = true -> is_Finite c = true ->
                 (exists t : word 8, is_Finite t = true /\ fvalue t = fma_exact a b c * 2 ^ 776) ->
                 exists neg, (fma_exact a b c <> 0 -> neg = (fma_exact a b c <? 0)) /\ rounded r neg (Z.abs (fma_exact a b c)) (fone 4))
              (combine (to_list t) (combine (to_list u) (to_list v))) (to_list r).
Proof.
  intros b n t u v Wt Wu Wv. assert (Hw : 4%nat = 4%nat \/ 4%nat = 8%nat) by auto.
  assert (IMP : forall {A B} (P Q : A -> B -> Prop), (forall x y, P x y -> Q x y) -> forall xs ys, Forall2 P xs ys -> Forall2 Q xs ys).
  { intros A B P Q I xs ys H. induction H; constructor; auto. }
  apply (op3_ok (math_native b 4)); auto. apply leaf3_ok; auto.
  - intros x y z Fx Fy Fz _. destruct C47_scalar_main as (S & _). apply (S 4%nat x y z Hw Fx Fy Fz).
  - intros xs ys zs _ Lx Ly Lz. generalize (C47_fma_float_partial_main xs ys zs Lx Ly Lz). apply IMP. intros (x & y & z) r R Fx Fy Fz. apply (R Fx Fy Fz).
  - intros xs ys zs _ Lx Ly Lz. generalize (C47_avx_fma_float_partial_main xs ys zs Lx Ly Lz). apply IMP. intros (x & y & z) r R Fx Fy Fz. apply (R Fx Fy Fz).
Qed.

Lemma C69_fma_refuted_main :
  forall b, b <> MScalar ->
    let all5 (x : word 4) := generate (math_native b 4) 5 (fun _ => x) in
    exists x y z : word 4, has_value x 257 /\ has_value y 65281 /\ is_Finite z = true /\ fvalue z * 2 ^ 60 = fone 4 /\
      option_map (fun r => map fvalue (to_list r)) (a_fma4 b (all5 x) (all5 y) (all5 z)) =
      Some (map (fun k => k * fone 4) [2 ^ 24; 2 ^ 24; 2 ^ 24; 2 ^ 24; 2 ^ 24 + 2]).
Proof.
  intros b NB all5. exists (mkw 4 0x43808000), (mkw 4 0x477f0100), (mkw 4 0x21800000). split; [split; vm_compute; reflexivity|]. split; [split; vm_compute; reflexivity|]. split; [reflexivity|]. split; [vm_compute; reflexivity|].
  destruct b as [|[]|]; [congruence| | |]; vm_compute; reflexivity.
Qed.
