(** Proofs about the operators and reductions of the AVX vectors. *)
From Coq Require Import ZArith List Bool Lia.
From Verif.Spec Require Import VectorSpec Seq NativeSpec MaskSpec FloatSpec.
From Verif.Model Require Import Word Fp SseReg SseMove SortNet SseInt SimdArray SimdArrayOps ScalarVec SseBuild SseArith SseMask SseNative
  AvxReg AvxMove AvxBuild AvxShuffle AvxMask AvxArith.
From Verif.Proof Require Import SeqP WordP FpP SseMoveP SseVecP SseIntP SseEmulP SortNetP SseMaskP SseBuildP SseArithP SseNativeP SseFloatRedP
  AvxMoveP AvxVecP AvxBuildP AvxShuffleP AvxMaskP.
Import ListNotations.
Local Open Scope Z_scope.

(** * both halves *)
Section Halves.
  Context {w : nat} (Hw : width_ok w).
  Lemma ymap2_pack {w'} (f : reg -> reg -> reg) (g : word w -> word w -> word w') xs ys :
    (16 / w' = 16 / w)%nat ->
    (forall l l' : list (word w), length l = (16 / w)%nat -> length l' = (16 / w)%nat -> f (pack l) (pack l') = pack (map2 g l l')) ->
    length xs = (32 / w)%nat -> length ys = (32 / w)%nat -> ymap2 f (ypack xs) (ypack ys) = ypack (map2 g xs ys).
  Proof.
    intros E H Lx Ly. destruct (split_halves xs Hw Lx) as (l & h & -> & Ll & Lh & ->). destruct (split_halves ys Hw Ly) as (l' & h' & -> & Ll' & Lh' & ->).
    unfold ymap2. cbn [lo128 hi128]. rewrite !H by auto. rewrite map2_app by congruence. rewrite ypack_app; auto.
    rewrite map2_length, Ll, Ll', Nat.min_id. auto.
  Qed.
  Lemma ymap2_mask (f : reg -> reg -> reg) (g : word w -> word w -> bool) xs ys :
    (forall l l' : list (word w), length l = (16 / w)%nat -> length l' = (16 / w)%nat -> f (pack l) (pack l') = mask_reg w (map2 g l l')) ->
    length xs = (32 / w)%nat -> length ys = (32 / w)%nat -> ymap2 f (ypack xs) (ypack ys) = ymask_reg w (map2 g xs ys).
  Proof.
    intros H Lx Ly. unfold ymask_reg. rewrite map_map2. apply ymap2_pack; auto. intros. rewrite H by auto. unfold mask_reg. now rewrite map_map2.
  Qed.
  Lemma ymap1_pack (f : reg -> reg) (g : word w -> word w) xs :
    (forall l : list (word w), length l = (16 / w)%nat -> f (pack l) = pack (map g l)) ->
    length xs = (32 / w)%nat -> ymap1 f (ypack xs) = ypack (map g xs).
  Proof.
    intros H Lx. destruct (split_halves xs Hw Lx) as (l & h & -> & Ll & Lh & ->). unfold ymap1. cbn [lo128 hi128]. rewrite !H by auto.
    rewrite map_app, ypack_app; auto. now rewrite map_length.
  Qed.
  (** a bitwise operation with a mask *)
  Lemma ymap2_with_mask (f : reg -> reg -> reg) (g : word w -> bool -> word w) xs m :
    (forall (l : list (word w)) k, length l = (16 / w)%nat -> length k = length l -> f (pack l) (mask_reg w k) = pack (map2 g l k)) ->
    length xs = (32 / w)%nat -> length m = length xs -> ymap2 f (ypack xs) (ymask_reg w m) = ypack (map2 g xs m).
  Proof.
    intros H Lx Lm. destruct (split_halves xs Hw Lx) as (l & h & -> & Ll & Lh & ->).
    rewrite Lx in Lm. destruct (ymask_split w m Hw Lm) as (l' & h' & -> & Ll' & Lh' & ->).
    unfold ymap2. cbn [lo128 hi128]. rewrite !H by congruence. rewrite map2_app by congruence. rewrite ypack_app; auto.
    rewrite map2_length, Ll, Ll', Nat.min_id. auto.
  Qed.
End Halves.

(** * comparisons *)
Section Cmp.
  Variables (e : etype) (xs ys : list (elt e)).
  Hypothesis Lx : length xs = (32 / esize e)%nat.
  Hypothesis Ly : length ys = (32 / esize e)%nat.
  Let Hw := esize_ok e.
  Lemma map2_swap {X Y Z} (f : X -> Y -> Z) : forall a b, map2 f a b = map2 (fun y x => f x y) b a.
  Proof. induction a as [|x a IH]; intros [|y b]; cbn; auto. now rewrite IH. Qed.
  Lemma cmp_len {T} (f : elt e -> elt e -> T) : length (map2 f xs ys) = (32 / esize e)%nat.
  Proof. rewrite map2_length. unfold elt in *. rewrite Lx, Ly. apply Nat.min_id. Qed.
  Lemma y_cmpeq_int : is_integer e = true -> y_cmpeq e (ypack xs) (ypack ys) = ymask_reg (esize e) (map2 (fun a b => e_val e a =? e_val e b) xs ys).
  Proof.
    intros He. apply (ymap2_mask (w := esize e)); auto. intros l l' Ll Ll'. pose proof (v_eq_int e l l' He Ll Ll') as E.
    unfold v_eq in E. now rewrite He in E.
  Qed.
  Lemma y_cmpgt_int : is_integer e = true -> y_cmpgt e (ypack xs) (ypack ys) = ymask_reg (esize e) (map2 (fun a b => e_val e b <? e_val e a) xs ys).
  Proof.
    intros He.
    assert (E : y_cmpgt e (ypack xs) (ypack ys) = ymap2 (v_gt e) (ypack xs) (ypack ys)) by (destruct e; try discriminate He; reflexivity).
    rewrite E. apply (ymap2_mask (w := esize e)); auto. intros l l' Ll Ll'. now apply v_gt_int.
  Qed.
End Cmp.
Section Cmp2.
  Variables (e : etype) (xs ys : list (elt e)).
  Hypothesis Lx : length xs = (32 / esize e)%nat.
  Hypothesis Ly : length ys = (32 / esize e)%nat.
  Let Hw := esize_ok e.
  Lemma y_cmplt_int : is_integer e = true -> y_cmplt e (ypack xs) (ypack ys) = ymask_reg (esize e) (map2 (fun a b => e_val e a <? e_val e b) xs ys).
  Proof.
    intros He. unfold y_cmplt. rewrite y_cmpgt_int by auto. f_equal. apply (map2_swap (fun a b => e_val e b <? e_val e a)).
  Qed.
  Theorem y_compare_int gcc : is_integer e = true ->
    let K f := ymask_reg (esize e) (map2 f xs ys) in let R := ypack xs in let S := ypack ys in let val := e_val e in
    y_eq e R S = K (fun a b => val a =? val b) /\ y_ne e R S = K (fun a b => negb (val a =? val b)) /\
    y_lt e R S = K (fun a b => val a <? val b) /\ y_le e R S = K (fun a b => val a <=? val b) /\
    y_gt gcc e R S = K (fun a b => val b <? val a) /\ y_ge gcc e R S = K (fun a b => val b <=? val a).
  Proof.
    intros He K R S val. unfold y_eq, y_ne, y_lt, y_le, y_gt, y_ge. rewrite He. unfold R, S.
    rewrite y_cmpeq_int, y_cmplt_int, y_cmpgt_int by auto. unfold y_not.
    rewrite !ym_not_ok by (auto; apply cmp_len; auto). rewrite !map_map2. unfold K.
    repeat split; f_equal; apply map2_ext; intros; unfold val; rewrite ?Z.leb_antisym; reflexivity.
  Qed.
  Theorem y_compare_fp gcc : is_integer e = false ->
    let K f := ymask_reg (esize e) (map2 f xs ys) in let R := ypack xs in let S := ypack ys in
    y_eq e R S = K float_eq /\ y_ne e R S = K (fun a b => negb (float_eq a b)) /\
    y_lt e R S = K float_lt /\ y_le e R S = K float_le /\
    y_gt gcc e R S = K (fun a b => if gcc then float_lt b a else negb (float_le a b)) /\
    y_ge gcc e R S = K (fun a b => if gcc then float_le b a else negb (float_lt a b)).
  Proof.
    intros He K R S. unfold y_eq, y_ne, y_lt, y_le, y_gt, y_ge. rewrite He. unfold R, S, y_fcmp, K.
    assert (F := float_fp e He).
    assert (G : forall rel, ymap2 (fcmp (esize e) rel) (ypack xs) (ypack ys) = ymask_reg (esize e) (map2 rel xs ys)).
    { intros rel. apply (ymap2_mask (w := esize e)); auto. intros. now apply fcmp_pack. }
    rewrite !G. repeat split; f_equal; apply map2_ext; intros.
    - now apply feq_ok.
    - f_equal. now apply feq_ok.
    - now apply flt_ok.
    - now apply fle_ok.
    - destruct gcc; [|f_equal]; [now apply flt_ok|now apply fle_ok].
    - destruct gcc; [|f_equal]; [now apply fle_ok|now apply flt_ok].
  Qed.
End Cmp2.

(** * arithmetic *)
Section Ar.
  Variables (e : etype) (xs ys : list (elt e)).
  Hypothesis Lx : length xs = (32 / esize e)%nat.
  Hypothesis Ly : length ys = (32 / esize e)%nat.
  Let Hw := esize_ok e.
  Lemma y_add_ok : y_add e (ypack xs) (ypack ys) = ypack (map2 wadd xs ys).
  Proof. apply (ymap2_pack (w := esize e)); auto. intros. unfold add_epi. now rewrite lift2_pack. Qed.
  Lemma y_sub_ok : y_sub e (ypack xs) (ypack ys) = ypack (map2 wsub xs ys).
  Proof. apply (ymap2_pack (w := esize e)); auto. intros. unfold sub_epi. now rewrite lift2_pack. Qed.
  Lemma y_mul_ok : y_mul e (ypack xs) (ypack ys) = ypack (map2 wmul xs ys).
  Proof. apply (ymap2_pack (w := esize e)); auto. intros. unfold mullo_epi. now rewrite lift2_pack. Qed.
  Lemma y_min_ok : y_min e (ypack xs) (ypack ys) = ypack (map2 (e_min e) xs ys).
  Proof. apply (ymap2_pack (w := esize e)); auto. intros. now apply v_min_pack. Qed.
  Lemma y_max_ok : y_max e (ypack xs) (ypack ys) = ypack (map2 (e_max e) xs ys).
  Proof. apply (ymap2_pack (w := esize e)); auto. intros. now apply v_max_pack. Qed.
End Ar.
Section Ar1.
  Variables (e : etype) (xs : list (elt e)).
  Hypothesis Lx : length xs = (32 / esize e)%nat.
  Let Hw := esize_ok e.
  Lemma y_neg_int : is_integer e = true -> y_neg e (ypack xs) = ypack (map (fun a => mkw (esize e) (- uval a)) xs).
  Proof.
    intros He.
    assert (E : y_neg e (ypack xs) = ymap1 (v_neg true e) (ypack xs)) by (destruct e; try discriminate He; reflexivity).
    rewrite E. apply (ymap1_pack (w := esize e)); auto. intros. now apply v_neg_int.
  Qed.
  Lemma y_neg_fp : is_integer e = false -> y_neg e (ypack xs) = ypack (map (fun a => wxor a (mkw (esize e) (sign_weight (esize e)))) xs).
  Proof.
    intros He.
    assert (E : y_neg e (ypack xs) = ymap1 (v_neg true e) (ypack xs)) by (destruct e; try discriminate He; reflexivity).
    rewrite E. apply (ymap1_pack (w := esize e)); auto. intros. now apply v_neg_fp.
  Qed.
  Lemma y_shl_ok k : y_shl e (ypack xs) k = ypack (map (sll_word (k mod 2 ^ 32)) xs).
  Proof. apply (ymap1_pack (w := esize e)); auto. intros. now apply lift1_pack. Qed.
  Lemma y_shr_ok k : y_shr e (ypack xs) k = ypack (map (fun x : word (esize e) => match e with Short | Int => sra_word (k mod 2 ^ 32) x | _ => srl_word (k mod 2 ^ 32) x end) xs).
  Proof.
    apply (ymap1_pack (w := esize e)); auto. intros. rewrite lift1_pack by auto. f_equal. apply map_ext. intros a. destruct e; reflexivity.
  Qed.
  Lemma set1_ypack w z : width_ok w -> y_set1 w z = ypack (repeat (mkw w z) (32 / w)).
  Proof. intros H. rewrite half_n, repeat_app, ypack_app by (auto; now rewrite repeat_length). reflexivity. Qed.
End Ar1.

(** * reductions *)
Section RedFold.
  Context {A : Type} (f : A -> A -> A).
  Hypothesis assoc : forall x y z, f (f x y) z = f x (f y z).
  Hypothesis comm : forall x y, f x y = f y x.
  Lemma fold_pull : forall l y h s, fold_left f (l ++ y :: h) s = fold_left f (l ++ h) (f s y).
  Proof.
    induction l as [|x l IH]; intros y h s; cbn; auto. rewrite IH. f_equal. rewrite !assoc. f_equal. apply comm.
  Qed.
  Lemma fold_halves : forall l h s, length l = length h -> fold_left f (map2 f l h) s = fold_left f (l ++ h) s.
  Proof.
    induction l as [|x l IH]; intros [|y h] s L; cbn in *; try discriminate L; auto.
    rewrite IH by lia. rewrite fold_pull. f_equal. now rewrite assoc.
  Qed.
  Lemma reduce_halves l h : length l = length h -> reduce_spec f (map2 f l h) = reduce_spec f (l ++ h).
  Proof.
    destruct l as [|x l], h as [|y h]; cbn; intros L; try discriminate L; auto. f_equal. rewrite fold_halves by lia.
    now rewrite fold_pull.
  Qed.
End RedFold.
Lemma sr8_8 (a b c d e f g h : word 2) : mm_srli (pack [a; b; c; d; e; f; g; h]) 8 = pack [e; f; g; h; w0 2; w0 2; w0 2; w0 2].
Proof. reflexivity. Qed.
Lemma sr8_4 (a b c d e f g h : word 2) : mm_srli (pack [a; b; c; d; e; f; g; h]) 4 = pack [c; d; e; f; g; h; w0 2; w0 2].
Proof. reflexivity. Qed.
Lemma sr8_2 (a b c d e f g h : word 2) : mm_srli (pack [a; b; c; d; e; f; g; h]) 2 = pack [b; c; d; e; f; g; h; w0 2].
Proof. reflexivity. Qed.
Lemma sr4_8 (a b c d : word 4) : mm_srli (pack [a; b; c; d]) 8 = pack [c; d; w0 4; w0 4].
Proof. reflexivity. Qed.
Lemma sr4_4 (a b c d : word 4) : mm_srli (pack [a; b; c; d]) 4 = pack [b; c; d; w0 4].
Proof. reflexivity. Qed.
Section Srli.
  Variables (e : etype) (op : reg -> reg -> reg) (f : elt e -> elt e -> elt e).
  Hypothesis He : is_integer e = true.
  Hypothesis Hop : forall xs ys : list (elt e), length xs = (16 / esize e)%nat -> length ys = (16 / esize e)%nat -> op (pack xs) (pack ys) = pack (map2 f xs ys).
  Hypothesis assoc : forall x y z, f (f x y) z = f x (f y z).
  Hypothesis comm : forall x y, f x y = f y x.
  Lemma h_srli_ok (xs : list (elt e)) : length xs = (16 / esize e)%nat -> reduce_spec f xs = Some (h_srli e op (pack xs)).
  Proof.
    pose proof (fun x y z => left_comm e f assoc comm x y z) as lc.
    intros L. unfold h_srli. destruct e; try discriminate He; unfold elt in *; cbn [esize] in *.
    1, 2: explode_to 8%nat xs L; rewrite sr8_8, Hop by reflexivity; cbn [map2]; rewrite sr8_4, Hop by reflexivity; cbn [map2];
          rewrite sr8_2, Hop by reflexivity; cbn [map2].
    3, 4: explode_to 4%nat xs L; rewrite sr4_8, Hop by reflexivity; cbn [map2]; rewrite sr4_4, Hop by reflexivity; cbn [map2].
    all: match goal with |- _ = Some (first_lane ?e (pack ?l)) => refine (eq_trans _ (f_equal Some (eq_sym (first_pack e l eq_refl)))) end; cbn [nth reduce_spec fold_left]; f_equal.
    1, 2: rewrite !assoc; f_equal; rewrite (lc x5 x0), (lc x1 x0), (lc x3 x0); f_equal; rewrite (lc x3 x1); f_equal;
      rewrite (lc x4 x2), (lc x5 x2), (lc x3 x2); f_equal; f_equal; rewrite (lc x5 x4); f_equal.
    all: rewrite !assoc; f_equal; apply lc.
  Qed.
End Srli.

Section YRed.
  Variable e : etype.
  Hypothesis He : is_integer e = true.
  Let Hw := esize_ok e.
  Lemma y_red (op : reg -> reg -> reg) (h : reg -> elt e) (f : elt e -> elt e -> elt e) (xs : list (elt e)) :
    (forall x y z, f (f x y) z = f x (f y z)) -> (forall x y, f x y = f y x) ->
    (forall l l' : list (elt e), length l = (16 / esize e)%nat -> length l' = (16 / esize e)%nat -> op (pack l) (pack l') = pack (map2 f l l')) ->
    (forall l : list (elt e), length l = (16 / esize e)%nat -> reduce_spec f l = Some (h (pack l))) ->
    length xs = (32 / esize e)%nat -> reduce_spec f xs = Some (h (op (lo128 (ypack xs)) (hi128 (ypack xs)))).
  Proof.
    intros As Co Hop Hh L. destruct (split_halves xs Hw L) as (l & r & -> & Ll & Lr & ->). cbn [lo128 hi128].
    rewrite Hop by auto. rewrite <- Hh by (rewrite map2_length; unfold elt in *; rewrite Ll, Lr; apply Nat.min_id).
    symmetry. apply reduce_halves; auto. unfold elt in *. congruence.
  Qed.
  Lemma y_min_all_ok (xs : list (elt e)) : length xs = (32 / esize e)%nat -> reduce_spec (e_min e) xs = Some (y_min_all e (ypack xs)).
  Proof. intros L. apply y_red; auto using e_min_assoc, e_min_comm. intros. now apply v_min_pack. intros. now apply hmin_ok. Qed.
  Lemma y_max_all_ok (xs : list (elt e)) : length xs = (32 / esize e)%nat -> reduce_spec (e_max e) xs = Some (y_max_all e (ypack xs)).
  Proof. intros L. apply y_red; auto using e_max_assoc, e_max_comm. intros. now apply v_max_pack. intros. now apply hmax_ok. Qed.
  Lemma add_epi_pack (l l' : list (elt e)) : length l = (16 / esize e)%nat -> length l' = (16 / esize e)%nat -> add_epi (esize e) (pack l) (pack l') = pack (map2 wadd l l').
  Proof. intros. unfold add_epi. now rewrite lift2_pack. Qed.
  Lemma mul_epi_pack (l l' : list (elt e)) : length l = (16 / esize e)%nat -> length l' = (16 / esize e)%nat -> mullo_epi (esize e) (pack l) (pack l') = pack (map2 wmul l l').
  Proof. intros. unfold mullo_epi. now rewrite lift2_pack. Qed.
  Lemma y_sum_ok (xs : list (elt e)) : length xs = (32 / esize e)%nat -> reduce_spec wadd xs = Some (y_sum e (ypack xs)).
  Proof.
    intros L. apply (y_red (add_epi (esize e)) (h_srli e (add_epi (esize e)))); auto using add_epi_pack; intros; try apply wadd_assoc; try apply wadd_comm.
    apply h_srli_ok; auto using add_epi_pack; intros; try apply wadd_assoc; apply wadd_comm.
  Qed.
  Lemma y_product_ok (xs : list (elt e)) : length xs = (32 / esize e)%nat -> reduce_spec wmul xs = Some (y_product e (ypack xs)).
  Proof.
    intros L. apply (y_red (mullo_epi (esize e)) (h_srli e (mullo_epi (esize e)))); auto using mul_epi_pack; intros; try apply wmul_assoc; try apply wmul_comm.
    apply h_srli_ok; auto using mul_epi_pack; intros; try apply wmul_assoc; apply wmul_comm.
  Qed.
End YRed.

(** * write masking *)
Lemma blendv_fp_pack w (a b : list (word w)) m : width_ok w -> length a = (16 / w)%nat -> length b = length a -> length m = length a ->
  mm_blendv_fp w (pack a) (pack b) (mask_reg w m) = pack (masked_update_spec m b a).
Proof.
  intros Hw L Lb Lm. unfold mm_blendv_fp, mask_reg. rewrite !lanes_pack by (rewrite ?map_length; congruence). f_equal. unfold masked_update_spec.
  clear L. revert b m Lb Lm. induction a as [|x a IH]; intros [|y b] [|k m] Lb Lm; cbn [length] in *; try discriminate; auto.
  cbn [map map3]. rewrite IH by lia. f_equal. by_width Hw; destruct k; reflexivity.
Qed.
Lemma map3_app {X Y Z T} (f : X -> Y -> Z -> T) : forall a b c a' b' c', length a = length b -> length b = length c ->
  map3 f (a ++ a') (b ++ b') (c ++ c') = map3 f a b c ++ map3 f a' b' c'.
Proof.
  induction a as [|x a IH]; intros [|y b] [|z c] a' b' c' L L'; cbn in *; try discriminate; auto. rewrite IH; auto.
Qed.
Lemma y_assign_ok e (xs vs : list (elt e)) m : length xs = (32 / esize e)%nat -> length vs = length xs -> length m = length xs ->
  y_assign e (ypack xs) (ypack vs) (ymask_reg (esize e) m) = ypack (masked_update_spec m vs xs).
Proof.
  intros L Lv Lm. pose proof (esize_ok e) as Hw. rewrite L in Lv, Lm. unfold elt in *.
  destruct (split_halves xs Hw L) as (l & h & -> & Ll & Lh & ->). destruct (split_halves vs Hw Lv) as (l' & h' & -> & Ll' & Lh' & ->).
  destruct (ymask_split _ m Hw Lm) as (lm & hm & -> & Llm & Lhm & ->). unfold y_assign. cbn [lo128 hi128].
  assert (G : forall (a b : list (word (esize e))) k, length a = (16 / esize e)%nat -> length b = (16 / esize e)%nat -> length k = (16 / esize e)%nat ->
    (if is_integer e then mm_blendv_epi8 else mm_blendv_fp (esize e)) (pack a) (pack b) (mask_reg (esize e) k) = pack (masked_update_spec k b a)).
  { intros a b k La Lb Lk. destruct (is_integer e).
    - exact (v_assign_ok true e a b k La (eq_trans Lb (eq_sym La)) (eq_trans Lk (eq_sym La))).
    - apply blendv_fp_pack; auto; congruence. }
  rewrite !G by auto. unfold masked_update_spec. rewrite map3_app by congruence. rewrite ypack_app; auto.
  rewrite map3_length; congruence.
Qed.
Lemma y_set_zero_inverted_ok e (xs : list (elt e)) m : length xs = (32 / esize e)%nat -> length m = length xs ->
  y_set_zero_inverted (ypack xs) (ymask_reg (esize e) m) = ypack (map2 (fun x (b : bool) => if b then x else w0 (esize e)) xs m).
Proof.
  intros L Lm. pose proof (esize_ok e) as Hw. pose proof (ymap2_with_mask (w := esize e) Hw (fun a k => mm_and k a) (fun x (b : bool) => if b then x else w0 (esize e)) xs m) as H.
  apply H; auto. intros l k Ll Lk. exact (v_set_zero_inverted_ok e l k Lk).
Qed.
Lemma y_set_zero_ok e (xs : list (elt e)) m : length xs = (32 / esize e)%nat -> length m = length xs ->
  y_set_zero (ypack xs) (ymask_reg (esize e) m) = ypack (map2 (fun x (b : bool) => if b then w0 (esize e) else x) xs m).
Proof.
  intros L Lm. pose proof (esize_ok e) as Hw. pose proof (ymap2_with_mask (w := esize e) Hw (fun a k => mm_andnot k a) (fun x (b : bool) => if b then w0 (esize e) else x) xs m) as H.
  apply H; auto. intros l k Ll Lk. exact (v_set_zero_ok e l k Lk).
Qed.

(** * masked reductions *)
Section YMasked.
  Variables (e : etype) (m : list bool) (xs : list (elt e)).
  Hypothesis L : length xs = (32 / esize e)%nat.
  Hypothesis Lm : length m = length xs.
  Lemma yupd_len z : length (masked_update_spec m xs (repeat z (length xs))) = (32 / esize e)%nat.
  Proof. unfold masked_update_spec. rewrite map3_length; rewrite ?repeat_length; auto. congruence. Qed.
  Lemma yassign_pad z : y_assign e (ypack (repeat z (32 / esize e))) (ypack xs) (ymask_reg (esize e) m) = ypack (masked_update_spec m xs (repeat z (length xs))).
  Proof. rewrite <- L. apply y_assign_ok; rewrite ?repeat_length; auto. Qed.
  Lemma ypack_repeat (z : elt e) r : r = pack (repeat z (16 / esize e)) -> Ymm r r = ypack (repeat z (32 / esize e)).
  Proof. intros ->. unfold elt in *. rewrite (half_n _ (esize_ok e)), repeat_app, ypack_app by now rewrite repeat_length. reflexivity. Qed.
  Lemma yzero_pack : yzero = ypack (repeat (w0 (esize e)) (32 / esize e)).
  Proof. apply ypack_repeat. apply setzero_pack, esize_lane. Qed.
  Section Int.
  Hypothesis He : is_integer e = true.
  Hypothesis HN : ~ none_spec m.
  Lemma y_min_masked_ok limits : reduce_spec (e_min e) (select_spec m xs) = Some (y_min_masked limits e (ypack xs) (ymask_reg (esize e) m)).
  Proof.
    unfold y_min_masked, y_limit_max. rewrite He. cbn [orb]. rewrite (ypack_repeat _ _ (limit_max_pack e He)), yassign_pad.
    rewrite <- y_min_all_ok by (auto; apply yupd_len).
    apply reduce_masked_neutral; auto. now apply e_min_assoc. now apply e_min_neutral. intros. rewrite e_min_comm by auto. now apply e_min_neutral.
  Qed.
  Lemma y_max_masked_ok limits : reduce_spec (e_max e) (select_spec m xs) = Some (y_max_masked limits e (ypack xs) (ymask_reg (esize e) m)).
  Proof.
    unfold y_max_masked, y_limit_min. rewrite He. cbn [orb]. rewrite (ypack_repeat _ _ (limit_min_pack e He)), yassign_pad.
    rewrite <- y_max_all_ok by (auto; apply yupd_len).
    apply reduce_masked_neutral; auto. now apply e_max_assoc. intros. rewrite e_max_comm by auto. now apply e_max_neutral. now apply e_max_neutral.
  Qed.
  Lemma y_sum_masked_ok : reduce_spec wadd (select_spec m xs) = Some (y_sum_masked e (ypack xs) (ymask_reg (esize e) m)).
  Proof.
    unfold y_sum_masked. rewrite yzero_pack, yassign_pad. rewrite <- y_sum_ok by (auto; apply yupd_len).
    apply reduce_masked_neutral; auto. apply wadd_assoc. intros. rewrite wadd_comm. apply wadd_0_l. apply wadd_0_l.
  Qed.
  Lemma y_product_masked_ok : reduce_spec wmul (select_spec m xs) = Some (y_product_masked e (ypack xs) (ymask_reg (esize e) m)).
  Proof.
    unfold y_product_masked. rewrite (set1_ypack _ _ (esize_ok e)), yassign_pad. rewrite <- y_product_ok by (auto; apply yupd_len).
    apply reduce_masked_neutral; auto. apply wmul_assoc. intros. rewrite wmul_comm. apply wmul_1_l. apply wmul_1_l.
  Qed.
  End Int.
End YMasked.

(** * float and double *)
Lemma y_fmin_lst e (xs : list (elt e)) : is_integer e = false -> length xs = (32 / esize e)%nat ->
  (forall x, In x xs -> nn x) -> lst xs (y_min_all e (ypack xs)).
Proof.
  intros He L N. unfold y_min_all. destruct e; try discriminate He; unfold elt in *; cbn [esize] in *.
  - explode_to 8%nat xs L.
    match goal with |- context [ypack [?a; ?b; ?c; ?d; ?e; ?f; ?g; ?h]] => change (ypack [a; b; c; d; e; f; g; h]) with (Ymm (pack [a; b; c; d]) (pack [e; f; g; h])) end.
    cbn [lo128 hi128]. rewrite (v_min_pack true Float) by reflexivity. cbn [map2]. unfold v_min_all. rewrite hps_pack.
    apply lst_perm with ((([x] ++ [x3]) ++ ([x1] ++ [x5])) ++ (([x0] ++ [x4]) ++ ([x2] ++ [x6]))); [cbn; tauto|].
    repeat apply lst2; apply lst1, N; cbn; auto 10.
  - explode_to 4%nat xs L.
    match goal with |- context [ypack [?a; ?b; ?c; ?d]] => change (ypack [a; b; c; d]) with (Ymm (pack [a; b]) (pack [c; d])) end.
    cbn [lo128 hi128]. rewrite (v_min_pack true Double) by reflexivity. cbn [map2]. unfold v_min_all. rewrite hpd_pack.
    apply lst_perm with (([x] ++ [x1]) ++ ([x0] ++ [x2])); [cbn; tauto|].
    repeat apply lst2; apply lst1, N; cbn; auto 10.
Qed.
Lemma y_fmax_grt e (xs : list (elt e)) : is_integer e = false -> length xs = (32 / esize e)%nat ->
  (forall x, In x xs -> nn x) -> grt xs (y_max_all e (ypack xs)).
Proof.
  intros He L N. unfold y_max_all. destruct e; try discriminate He; unfold elt in *; cbn [esize] in *.
  - explode_to 8%nat xs L.
    match goal with |- context [ypack [?a; ?b; ?c; ?d; ?e; ?f; ?g; ?h]] => change (ypack [a; b; c; d; e; f; g; h]) with (Ymm (pack [a; b; c; d]) (pack [e; f; g; h])) end.
    cbn [lo128 hi128]. rewrite (v_max_pack true Float) by reflexivity. cbn [map2]. unfold v_max_all. rewrite hps_pack.
    apply grt_perm with ((([x] ++ [x3]) ++ ([x1] ++ [x5])) ++ (([x0] ++ [x4]) ++ ([x2] ++ [x6]))); [cbn; tauto|].
    repeat apply grt2; apply grt1, N; cbn; auto 10.
  - explode_to 4%nat xs L.
    match goal with |- context [ypack [?a; ?b; ?c; ?d]] => change (ypack [a; b; c; d]) with (Ymm (pack [a; b]) (pack [c; d])) end.
    cbn [lo128 hi128]. rewrite (v_max_pack true Double) by reflexivity. cbn [map2]. unfold v_max_all. rewrite hpd_pack.
    apply grt_perm with (([x] ++ [x1]) ++ ([x0] ++ [x2])); [cbn; tauto|].
    repeat apply grt2; apply grt1, N; cbn; auto 10.
Qed.
Lemma y_reduce_ps_order op (a b c d e f g h : word 4) :
  y_reduce_ps op (ypack [a; b; c; d; e; f; g; h]) = op (op (op a e) (op c g)) (op (op b f) (op d h)).
Proof.
  unfold y_reduce_ps. change (ypack [a; b; c; d; e; f; g; h]) with (Ymm (pack [a; b; c; d]) (pack [e; f; g; h])). cbn [lo128 hi128].
  rewrite lift2_pack by reflexivity. cbn [map2]. apply hps_pack.
Qed.
Lemma y_reduce_pd_order op (a b c d : word 8) : y_reduce_pd op (ypack [a; b; c; d]) = op (op a c) (op b d).
Proof.
  unfold y_reduce_pd. change (ypack [a; b; c; d]) with (Ymm (pack [a; b]) (pack [c; d])). cbn [lo128 hi128].
  rewrite lift2_pack by reflexivity. cbn [map2]. apply hpd_pack.
Qed.

(** the masked minimum / maximum for any value [p] of the entries that are not selected *)
Section Padded.
  Variables (e : etype) (m : list bool) (xs : list (elt e)) (p r : elt e).
  Hypothesis He : is_integer e = false.
  Hypothesis Lm : length m = length xs.
  Hypothesis N : forall x, In x (select_spec m xs) -> is_NaN x = false.
  Hypothesis Np : nn p.
  Let padded := masked_update_spec m xs (repeat p (length xs)).
  Lemma padded_nn x : In x padded -> nn x.
  Proof.
    intros Hx. apply in_update in Hx; auto. destruct Hx as [Hx| ->]; auto. unfold nn. rewrite <- nan_elt by auto. now apply N.
  Qed.
  Lemma min_padded_ok : lst padded r -> select_spec m xs <> [] -> fkey p <> 0 ->
    (forall x, In x (select_spec m xs) -> float_le x p = true) -> least float_le (select_spec m xs) r.
  Proof.
    intros [I H] NE Kp HM. apply lst_least; auto. split; [|intros x Hx; apply H, in_select; auto].
    apply in_update in I; auto. destruct I as [I|I]; auto. rewrite I in *.
    destruct (select_spec m xs) as [|s l] eqn:S; [easy|]. assert (Is : In s (select_spec m xs)) by (rewrite S; now left).
    destruct (H s) as [Ns Ks]; [apply in_select; auto|].
    specialize (HM s (or_introl eq_refl)). rewrite <- fle_ok, fle_iff in HM by (auto; now apply float_fp).
    rewrite (fkey_inj _ s p) by (try apply float_fp; auto; lia). now left.
  Qed.
  Lemma max_padded_ok : grt padded r -> fkey p <> 0 ->
    (exists x, In x (select_spec m xs) /\ float_le p x = true) -> greatest float_le (select_spec m xs) r.
  Proof.
    intros [I H] Kp [s [Is Hs]]. apply grt_greatest; auto. split; [|intros x Hx; apply H, in_select; auto].
    apply in_update in I; auto. destruct I as [I|I]; auto. rewrite I in *.
    destruct (H s) as [Ns Ks]; [apply in_select; auto|].
    rewrite <- fle_ok, fle_iff in Hs by (auto; now apply float_fp).
    rewrite <- (fkey_inj _ s p); auto. apply float_fp; auto. lia.
  Qed.
  Lemma max_padded_wrong : grt padded r -> In false m -> (forall x, In x (select_spec m xs) -> float_lt x p = true) -> r = p.
  Proof.
    intros [I H] F H0. apply in_update in I; auto. destruct I as [I|I]; auto. exfalso.
    destruct (H p) as [_ K]; [apply in_pad; auto|]. specialize (H0 _ I). rewrite <- flt_ok in H0 by (now apply float_fp).
    apply flt_iff in H0; auto; [lia|]. apply (nn_sel e m xs He N); auto.
  Qed.
  Lemma min_padded_wrong : lst padded r -> In false m -> (forall x, In x (select_spec m xs) -> float_lt p x = true) -> r = p.
  Proof.
    intros [I H] F H0. apply in_update in I; auto. destruct I as [I|I]; auto. exfalso.
    destruct (H p) as [_ K]; [apply in_pad; auto|]. specialize (H0 _ I). rewrite <- flt_ok in H0 by (now apply float_fp).
    apply flt_iff in H0; auto; [lia|]. apply (nn_sel e m xs He N); auto.
  Qed.
End Padded.
Definition pad_max (limits : bool) e : elt e := if limits then float_max e else w0 _.
Definition pad_min (limits : bool) e : elt e := if limits then float_min e else w0 _.
Lemma zero_nn e : is_integer e = false -> nn (w0 (esize e)).
Proof. destruct e; intros H; try discriminate H; vm_compute; auto. Qed.
Lemma pad_max_nn limits e : is_integer e = false -> nn (pad_max limits e).
Proof. intros He. destruct limits; [now apply fmax_nn|now apply zero_nn]. Qed.
Lemma pad_min_nn limits e : is_integer e = false -> nn (pad_min limits e).
Proof. intros He. destruct limits; [now apply fmin_nn|now apply zero_nn]. Qed.
Lemma y_flimit_max limits e : is_integer e = false -> y_limit_max limits e = ypack (repeat (pad_max limits e) (32 / esize e)).
Proof.
  intros He. unfold y_limit_max, pad_max. rewrite He. destruct limits; cbn [orb].
  - apply ypack_repeat, flimit_max, He.
  - apply yzero_pack.
Qed.
Lemma y_flimit_min limits e : is_integer e = false -> y_limit_min limits e = ypack (repeat (pad_min limits e) (32 / esize e)).
Proof.
  intros He. unfold y_limit_min, pad_min. rewrite He. destruct limits; cbn [orb].
  - apply ypack_repeat, flimit_min, He.
  - apply yzero_pack.
Qed.
Section YFM.
  Variables (limits : bool) (e : etype) (m : list bool) (xs : list (elt e)).
  Hypothesis He : is_integer e = false.
  Hypothesis L : length xs = (32 / esize e)%nat.
  Hypothesis Lm : length m = length xs.
  Hypothesis N : forall x, In x (select_spec m xs) -> is_NaN x = false.
  Lemma y_fmin_masked_lst : lst (masked_update_spec m xs (repeat (pad_max limits e) (length xs))) (y_min_masked limits e (ypack xs) (ymask_reg (esize e) m)).
  Proof.
    unfold y_min_masked. rewrite y_flimit_max, yassign_pad by auto. apply y_fmin_lst; auto.
    - now apply yupd_len.
    - intros x. apply padded_nn; auto. now apply pad_max_nn.
  Qed.
  Lemma y_fmax_masked_grt : grt (masked_update_spec m xs (repeat (pad_min limits e) (length xs))) (y_max_masked limits e (ypack xs) (ymask_reg (esize e) m)).
  Proof.
    unfold y_max_masked. rewrite y_flimit_min, yassign_pad by auto. apply y_fmax_grt; auto.
    - now apply yupd_len.
    - intros x. apply padded_nn; auto. now apply pad_min_nn.
  Qed.
End YFM.
Section VFM.
  Variables (e : etype) (m : list bool) (xs : list (elt e)).
  Hypothesis He : is_integer e = false.
  Hypothesis L : length xs = (16 / esize e)%nat.
  Hypothesis Lm : length m = length xs.
  Hypothesis N : forall x, In x (select_spec m xs) -> is_NaN x = false.
  Lemma v_fmin_default_lst : lst (masked_update_spec m xs (repeat (w0 (esize e)) (length xs))) (v_min_masked_default e (pack xs) (mask_reg (esize e) m)).
  Proof.
    unfold v_min_masked_default. rewrite (setzero_pack (esize e)), assign_pad by (auto; apply esize_lane).
    apply fmin_lst; auto.
    - now apply upd_len.
    - intros x. apply padded_nn; auto. now apply zero_nn.
  Qed.
  Lemma v_fmax_default_grt : grt (masked_update_spec m xs (repeat (w0 (esize e)) (length xs))) (v_max_masked_default e (pack xs) (mask_reg (esize e) m)).
  Proof.
    unfold v_max_masked_default. rewrite (setzero_pack (esize e)), assign_pad by (auto; apply esize_lane).
    apply fmax_grt; auto.
    - now apply upd_len.
    - intros x. apply padded_nn; auto. now apply zero_nn.
  Qed.
End VFM.
