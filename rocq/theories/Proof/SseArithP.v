(** Proofs about the operators and reductions of the SSE vectors. *)
From Coq Require Import ZArith Znumtheory List Bool Lia.
From Verif.Spec Require Import VectorSpec Seq NativeSpec MaskSpec FloatSpec.
From Verif.Model Require Import Word Fp SseReg SseMove SortNet SseInt SseBuild SseArith SseMask ScalarVec.
From Verif.Proof Require Import SeqP WordP FpP SseMoveP SseIntP SseEmulP SseMaskP ScalarVecP SseBuildP.
Import ListNotations.
Local Open Scope Z_scope.

Lemma esize_lane e : lane_ok (esize e).
Proof. apply width_lane, esize_ok. Qed.

(** * comparisons *)

Lemma mask_map2 w {X Y} (f : X -> Y -> bool) xs ys : pack (map2 (fun a b => wmask w (f a b)) xs ys) = mask_reg w (map2 f xs ys).
Proof. unfold mask_reg. now rewrite map_map2. Qed.
Lemma v_eq_int e (xs ys : list (elt e)) : is_integer e = true -> length xs = (16 / esize e)%nat -> length ys = (16 / esize e)%nat ->
  v_eq e (pack xs) (pack ys) = mask_reg (esize e) (map2 (fun a b => e_val e a =? e_val e b) xs ys).
Proof.
  intros He Hx Hy. unfold v_eq. rewrite He. unfold cmpeq_epi. rewrite lift2_pack by auto. rewrite mask_map2. f_equal.
  apply map2_ext. intros a b. destruct e; try discriminate He; cbn [e_val]; auto;
  destruct (Z.eqb_spec (uval a) (uval b)) as [E|E], (Z.eqb_spec (sval a) (sval b)) as [E'|E']; auto; exfalso.
  1,3: apply E'; apply word_ext in E; now subst.
  all: apply E; apply sval_inj in E'; now subst.
Qed.
Lemma v_not_mask w m : width_ok w -> length m = (16 / w)%nat -> v_not (mask_reg w m) = mask_reg w (map negb m).
Proof. apply m_not_ok. Qed.
Lemma v_ne_int e (xs ys : list (elt e)) : is_integer e = true -> length xs = (16 / esize e)%nat -> length ys = (16 / esize e)%nat ->
  v_ne e (pack xs) (pack ys) = mask_reg (esize e) (map2 (fun a b => negb (e_val e a =? e_val e b)) xs ys).
Proof.
  intros He Hx Hy. pose proof (v_eq_int e xs ys He Hx Hy) as E. unfold v_eq in E. unfold v_ne. rewrite He in *. rewrite E.
  rewrite v_not_mask; [now rewrite map_map2|apply esize_ok|]. rewrite map2_length, Hx, Hy. lia.
Qed.
Lemma v_lt_int e (xs ys : list (elt e)) : is_integer e = true -> length xs = (16 / esize e)%nat -> length ys = (16 / esize e)%nat ->
  v_lt e (pack xs) (pack ys) = mask_reg (esize e) (map2 (fun a b => e_val e a <? e_val e b) xs ys).
Proof.
  intros He Hx Hy. rewrite <- mask_map2. destruct e; try discriminate He; unfold v_lt.
  1, 3: unfold cmplt_epi; now rewrite lift2_pack.
  all: rewrite cmplt_epu_pack; auto; apply width_lane; unfold width_ok; cbn; auto.
Qed.
Lemma v_gt_int e (xs ys : list (elt e)) : is_integer e = true -> length xs = (16 / esize e)%nat -> length ys = (16 / esize e)%nat ->
  v_gt e (pack xs) (pack ys) = mask_reg (esize e) (map2 (fun a b => e_val e b <? e_val e a) xs ys).
Proof.
  intros He Hx Hy. rewrite <- mask_map2. destruct e; try discriminate He; unfold v_gt.
  1, 3: unfold cmpgt_epi; now rewrite lift2_pack.
  all: rewrite cmpgt_epu_pack; auto; apply width_lane; unfold width_ok; cbn; auto.
Qed.
Lemma v_ge_int e (xs ys : list (elt e)) : is_integer e = true -> length xs = (16 / esize e)%nat -> length ys = (16 / esize e)%nat ->
  v_ge e (pack xs) (pack ys) = mask_reg (esize e) (map2 (fun a b => e_val e b <=? e_val e a) xs ys).
Proof.
  intros He Hx Hy. unfold v_ge. rewrite He, v_lt_int, v_not_mask by (auto; try apply esize_ok; rewrite map2_length, Hx, Hy; lia).
  rewrite map_map2. f_equal. apply map2_ext. intros. now rewrite <- Z.leb_antisym.
Qed.
Lemma v_le_int e (xs ys : list (elt e)) : is_integer e = true -> length xs = (16 / esize e)%nat -> length ys = (16 / esize e)%nat ->
  v_le e (pack xs) (pack ys) = mask_reg (esize e) (map2 (fun a b => e_val e a <=? e_val e b) xs ys).
Proof.
  intros He Hx Hy. unfold v_le. rewrite He, v_gt_int, v_not_mask by (auto; try apply esize_ok; rewrite map2_length, Hx, Hy; lia).
  rewrite map_map2. f_equal. apply map2_ext. intros. now rewrite <- Z.leb_antisym.
Qed.

Lemma fcmp_pack w rel (xs ys : list (word w)) : length xs = (16 / w)%nat -> length ys = (16 / w)%nat ->
  fcmp w rel (pack xs) (pack ys) = mask_reg w (map2 rel xs ys).
Proof. intros. unfold fcmp. rewrite lift2_pack by auto. apply mask_map2. Qed.
Lemma float_fp e : is_integer e = false -> fp_width (esize e).
Proof. destruct e; intros H; try discriminate H; unfold fp_width; cbn; auto. Qed.
Section FCmp.
  Variables (e : etype) (xs ys : list (elt e)).
  Hypothesis He : is_integer e = false.
  Hypothesis Hx : length xs = (16 / esize e)%nat.
  Hypothesis Hy : length ys = (16 / esize e)%nat.
  Lemma v_eq_fp : v_eq e (pack xs) (pack ys) = mask_reg (esize e) (map2 float_eq xs ys).
  Proof. unfold v_eq. rewrite He, fcmp_pack by auto. f_equal. apply map2_ext. intros. apply feq_ok, float_fp, He. Qed.
  Lemma v_ne_fp : v_ne e (pack xs) (pack ys) = mask_reg (esize e) (map2 (fun a b => negb (float_eq a b)) xs ys).
  Proof. unfold v_ne. rewrite He, fcmp_pack by auto. f_equal. apply map2_ext. intros. f_equal. apply feq_ok, float_fp, He. Qed.
  Lemma v_lt_fp : v_lt e (pack xs) (pack ys) = mask_reg (esize e) (map2 float_lt xs ys).
  Proof.
    assert (E : v_lt e (pack xs) (pack ys) = fcmp (esize e) flt (pack xs) (pack ys)) by (destruct e; try discriminate He; reflexivity).
    rewrite E, fcmp_pack by auto. f_equal. apply map2_ext. intros. apply flt_ok, float_fp, He.
  Qed.
  Lemma v_gt_fp : v_gt e (pack xs) (pack ys) = mask_reg (esize e) (map2 (fun a b => float_lt b a) xs ys).
  Proof.
    assert (E : v_gt e (pack xs) (pack ys) = fcmp (esize e) (fun a b => flt b a) (pack xs) (pack ys)) by (destruct e; try discriminate He; reflexivity).
    rewrite E, fcmp_pack by auto. f_equal. apply map2_ext. intros. apply flt_ok, float_fp, He.
  Qed.
  Lemma v_le_fp : v_le e (pack xs) (pack ys) = mask_reg (esize e) (map2 float_le xs ys).
  Proof. unfold v_le. rewrite He, fcmp_pack by auto. f_equal. apply map2_ext. intros. apply fle_ok, float_fp, He. Qed.
  Lemma v_ge_fp : v_ge e (pack xs) (pack ys) = mask_reg (esize e) (map2 (fun a b => negb (float_lt a b)) xs ys).
  Proof. unfold v_ge. rewrite He, fcmp_pack by auto. f_equal. apply map2_ext. intros. f_equal. apply flt_ok, float_fp, He. Qed.
End FCmp.

(** * arithmetic *)
Lemma set1_pack w z : set1 w z = pack (repeat (mkw w z) (16 / w)).
Proof. reflexivity. Qed.
Lemma sval_allone w : lane_ok w -> sval (wmask w true) = -1.
Proof. intros [->|[->|[->| ->]]]; vm_compute; reflexivity. Qed.
Lemma v_neg_int ssse3 e (xs : list (elt e)) : is_integer e = true -> length xs = (16 / esize e)%nat ->
  v_neg ssse3 e (pack xs) = pack (map (fun a => mkw (esize e) (- uval a)) xs).
Proof.
  intros He Hx. pose proof (esize_lane e) as Hl.
  assert (E : v_neg ssse3 e (pack xs) = if ssse3 then mm_sign_epi (esize e) (pack xs) setallone else sub_epi (esize e) mm_setzero (pack xs))
    by (destruct e; try discriminate He; reflexivity).
  rewrite E. destruct ssse3.
  - rewrite (setallone_pack (esize e)) by auto. unfold mm_sign_epi. rewrite lift2_pack by (auto; now rewrite repeat_length).
    f_equal. rewrite map2_repeat_r by auto. apply map_ext. intros a. rewrite sval_allone by auto. cbn [Z.ltb Z.compare].
    apply mkw_eq. rewrite <- (sval_mod a). pose proof (modulus_pos (esize e)).
    rewrite <- Zopp_mod_idemp_l || idtac. unfold Z.opp at 1.
    change (- sval a) with (- sval a). 
    replace (- sval a) with (0 - sval a) by lia. replace (- (sval a mod modulus (esize e))) with (0 - sval a mod modulus (esize e)) by lia.
    now rewrite Zminus_mod_idemp_r.
  - rewrite (setzero_pack (esize e)) by auto. unfold sub_epi. rewrite lift2_pack by (auto; now rewrite repeat_length).
    f_equal. rewrite map2_repeat_l by auto. apply map_ext. intros a. unfold wsub. rewrite uval_w0. f_equal.
Qed.
Lemma v_neg_fp ssse3 e (xs : list (elt e)) : is_integer e = false -> length xs = (16 / esize e)%nat ->
  v_neg ssse3 e (pack xs) = pack (map (fun a => wxor a (mkw (esize e) (sign_weight (esize e)))) xs).
Proof.
  intros He Hx. assert (E : v_neg ssse3 e (pack xs) = mm_xor (pack xs) (set1 (esize e) (sign_weight (esize e)))) by (destruct e; try discriminate He; reflexivity).
  rewrite E, set1_pack, xor_pack by (now rewrite repeat_length). f_equal. now rewrite map2_repeat_r.
Qed.

(** multiplication: the SSE2 code for int and uint *)
Lemma pack_join (p q r s : word 4) : pack [p; q; r; s] = pack [@join 4 p q : word 8; @join 4 r s].
Proof.
  pose proof (pack_halves 4 [@join 4 p q; @join 4 r s]) as H. cbn [flat_map app] in H. rewrite !lo_join, !hi_join in H. symmetry. exact H.
Qed.
Lemma mul_epu32_pack (a b c d a' b' c' d' : word 4) :
  mm_mul_epu32 (pack [a; b; c; d]) (pack [a'; b'; c'; d']) = pack [mkw 8 (uval a * uval a'); mkw 8 (uval c * uval c')].
Proof.
  unfold mm_mul_epu32. rewrite !pack_join. rewrite lift2_pack by reflexivity. cbn [map2].
  assert (J : forall p q : word 4, uval (@join 4 p q : word 8) mod 2 ^ 32 = uval p).
  { intros p q. pose proof (uval_join 4 p q) as U. change (2 * 4)%nat with 8%nat in U. rewrite U. change (modulus 4) with (2 ^ 32).
    rewrite Z.mul_comm, Z.mod_add by lia. apply Z.mod_small. apply (uval_range p). }
  now rewrite !J.
Qed.
Lemma mul_int_pack sse41 (xs ys : list (word 4)) : length xs = 4%nat -> length ys = 4%nat ->
  mul_int sse41 (pack xs) (pack ys) = pack (map2 wmul xs ys).
Proof.
  intros Hx Hy. unfold mul_int. destruct sse41; [unfold mullo_epi; now rewrite lift2_pack|].
  explode_to 4%nat xs Hx. explode_to 4%nat ys Hy.
  change (mm_srli (pack [x; x0; x1; x2]) 4) with (pack [x0; x1; x2; w0 4]).
  change (mm_srli (pack [x3; x4; x5; x6]) 4) with (pack [x4; x5; x6; w0 4]).
  rewrite !mul_epu32_pack. rewrite !pack_halves2. rewrite !shuffle_epi32_pack by reflexivity. cbn [map].
  change (imm2 8 0) with 0%nat. change (imm2 8 1) with 2%nat. change (imm2 8 2) with 0%nat. change (imm2 8 3) with 0%nat. cbn [nth].
  assert (L : forall z, @lo_half 4 (mkw 8 z) = mkw 4 z).
  { intros z. unfold lo_half. apply mkw_eq. rewrite uval_mkw. rewrite <- Zmod_div_mod; try reflexivity. now exists (2 ^ 32). }
  rewrite !L. reflexivity.
Qed.
Lemma v_mul_pack sse41 e (xs ys : list (elt e)) : is_integer e = true -> length xs = (16 / esize e)%nat -> length ys = (16 / esize e)%nat ->
  v_mul sse41 e (pack xs) (pack ys) = pack (map2 wmul xs ys).
Proof.
  intros He Hx Hy. destruct e; try discriminate He; unfold v_mul.
  1, 2: unfold mullo_epi; now rewrite lift2_pack.
  all: now apply mul_int_pack.
Qed.
Lemma v_add_pack e (xs ys : list (elt e)) : length xs = (16 / esize e)%nat -> length ys = (16 / esize e)%nat -> v_add e (pack xs) (pack ys) = pack (map2 wadd xs ys).
Proof. intros. unfold v_add, add_epi. now rewrite lift2_pack. Qed.
Lemma v_sub_pack e (xs ys : list (elt e)) : length xs = (16 / esize e)%nat -> length ys = (16 / esize e)%nat -> v_sub e (pack xs) (pack ys) = pack (map2 wsub xs ys).
Proof. intros. unfold v_sub, sub_epi. now rewrite lift2_pack. Qed.
Lemma v_min_pack sse41 e (xs ys : list (elt e)) : length xs = (16 / esize e)%nat -> length ys = (16 / esize e)%nat ->
  v_min sse41 e (pack xs) (pack ys) = pack (map2 (e_min e) xs ys).
Proof.
  intros Hx Hy. destruct e; unfold v_min, e_min.
  - unfold mm_min_epi. rewrite lift2_pack by auto. f_equal. apply map2_ext. unfold elt in *; cbn [esize] in *. intros a b. unfold le_s.
    destruct (Z.ltb_spec (sval a) (sval b)), (Z.leb_spec (sval a) (sval b)); auto; try lia. apply sval_inj. lia.
  - apply min_epu_pack; auto; unfold lane_ok; auto.
  - apply min_epi_pack; auto; unfold lane_ok; auto.
  - apply min_epu_pack; auto; unfold lane_ok; auto.
  - unfold mm_min_fp. now rewrite lift2_pack.
  - unfold mm_min_fp. now rewrite lift2_pack.
Qed.
Lemma v_max_pack sse41 e (xs ys : list (elt e)) : length xs = (16 / esize e)%nat -> length ys = (16 / esize e)%nat ->
  v_max sse41 e (pack xs) (pack ys) = pack (map2 (e_max e) xs ys).
Proof.
  intros Hx Hy. destruct e; unfold v_max, e_max.
  - unfold mm_max_epi. rewrite lift2_pack by auto. f_equal. apply map2_ext. unfold elt in *; cbn [esize] in *. intros a b. unfold le_s.
    destruct (Z.ltb_spec (sval b) (sval a)), (Z.leb_spec (sval a) (sval b)); auto; try lia.
  - apply max_epu_pack; auto; unfold lane_ok; auto.
  - apply max_epi_pack; auto; unfold lane_ok; auto.
  - apply max_epu_pack; auto; unfold lane_ok; auto.
  - unfold mm_max_fp. now rewrite lift2_pack.
  - unfold mm_max_fp. now rewrite lift2_pack.
Qed.

(** * reductions *)
Lemma sh4_a (a b c d : word 4) : shuffle_epi32 8 (pack [a; b; c; d]) (mm_shuffle 1 0 3 2) = pack [c; d; a; b].
Proof. reflexivity. Qed.
Lemma sh4_b (a b c d : word 4) : shufflelo_epi16 8 (pack [a; b; c; d]) (mm_shuffle 1 0 3 2) = pack [b; a; c; d].
Proof. reflexivity. Qed.
Lemma sh8_a (a b c d e f g h : word 2) : shuffle_epi32 8 (pack [a; b; c; d; e; f; g; h]) (mm_shuffle 1 0 3 2) = pack [e; f; g; h; a; b; c; d].
Proof. reflexivity. Qed.
Lemma sh8_b (a b c d e f g h : word 2) : shufflelo_epi16 8 (pack [a; b; c; d; e; f; g; h]) (mm_shuffle 1 0 3 2) = pack [c; d; a; b; e; f; g; h].
Proof. reflexivity. Qed.
Lemma sh8_c (a b c d e f g h : word 2) : shufflelo_epi16 8 (pack [a; b; c; d; e; f; g; h]) (mm_shuffle 1 1 1 1) = pack [b; b; b; b; e; f; g; h].
Proof. reflexivity. Qed.
Lemma first_pack e (xs : list (elt e)) : length xs = (16 / esize e)%nat -> first_lane e (pack xs) = nth 0 xs (w0 _).
Proof. intros. unfold first_lane. now rewrite lanes_pack. Qed.

Section Red.
  Variables (e : etype) (op : reg -> reg -> reg) (f : elt e -> elt e -> elt e).
  Hypothesis He : is_integer e = true.
  Hypothesis Hop : forall xs ys : list (elt e), length xs = (16 / esize e)%nat -> length ys = (16 / esize e)%nat -> op (pack xs) (pack ys) = pack (map2 f xs ys).
  Hypothesis assoc : forall x y z, f (f x y) z = f x (f y z).
  Hypothesis comm : forall x y, f x y = f y x.
  Lemma left_comm x y z : f x (f y z) = f y (f x z).
  Proof. now rewrite <- !assoc, (comm x y). Qed.
  Lemma h_reduce_ok (xs : list (elt e)) : length xs = (16 / esize e)%nat -> reduce_spec f xs = Some (h_reduce e op (pack xs)).
  Proof.
    pose proof left_comm as lc.
    intros L. unfold h_reduce. destruct e; try discriminate He; unfold elt in *; cbn [esize] in *.
    1, 2: explode_to 8%nat xs L; rewrite sh8_a, Hop by reflexivity; cbn [map2]; rewrite sh8_b, Hop by reflexivity; cbn [map2];
          rewrite sh8_c, Hop by reflexivity; cbn [map2].
    3, 4: explode_to 4%nat xs L; rewrite sh4_a, Hop by reflexivity; cbn [map2]; rewrite sh4_b, Hop by reflexivity; cbn [map2].
    all: match goal with |- _ = Some (first_lane ?e (pack ?l)) => refine (eq_trans _ (f_equal Some (eq_sym (first_pack e l eq_refl)))) end; cbn [nth reduce_spec fold_left]; f_equal.
    1, 2: rewrite !assoc; f_equal; rewrite (lc x5 x0), (lc x1 x0), (lc x3 x0); f_equal; rewrite (lc x3 x1); f_equal;
      rewrite (lc x4 x2), (lc x5 x2), (lc x3 x2); f_equal; f_equal; rewrite (lc x5 x4); f_equal.
    all: rewrite !assoc; f_equal; apply lc.
  Qed.
End Red.

Section Tot.
  Context {A : Type} (le : A -> A -> bool) (T : total_order le).
  Let mn x y := if le x y then x else y.
  Let mx x y := if le x y then y else x.
  Lemma le_false x y : le x y = false -> le y x = true.
  Proof. intros H. destruct (to_total le T x y); auto. congruence. Qed.
  Ltac tot := repeat match goal with
    | H : le ?x ?y = false |- _ => apply le_false in H
    | H : le ?x ?y = true, H' : le ?y ?x = true |- _ => let E := fresh in pose proof (to_antisym le T _ _ H H') as E; subst; clear H'
    end; auto.
  Lemma mn_comm x y : mn x y = mn y x.
  Proof. unfold mn. destruct (le x y) eqn:A1, (le y x) eqn:A2; tot. Qed.
  Lemma mx_comm x y : mx x y = mx y x.
  Proof. unfold mx. destruct (le x y) eqn:A1, (le y x) eqn:A2; tot. Qed.
  Lemma mn_assoc x y z : mn (mn x y) z = mn x (mn y z).
  Proof.
    unfold mn. destruct (le x y) eqn:A1, (le y z) eqn:A2; rewrite ?A1, ?A2; auto; destruct (le x z) eqn:A3; auto.
    - exfalso. pose proof (to_trans le T _ _ _ A1 A2). congruence.
    - pose proof (le_false _ _ A1) as B1. pose proof (le_false _ _ A2) as B2. pose proof (to_trans le T _ _ _ B2 B1) as B3.
      apply (to_antisym le T); auto.
  Qed.
  Lemma mx_assoc x y z : mx (mx x y) z = mx x (mx y z).
  Proof.
    unfold mx. destruct (le x y) eqn:A1, (le y z) eqn:A2; rewrite ?A1, ?A2; auto; destruct (le x z) eqn:A3; auto.
    - exfalso. pose proof (to_trans le T _ _ _ A1 A2). congruence.
    - pose proof (le_false _ _ A1) as B1. pose proof (le_false _ _ A2) as B2. pose proof (to_trans le T _ _ _ B2 B1) as B3.
      apply (to_antisym le T); auto.
  Qed.
End Tot.
Lemma e_min_assoc e : is_integer e = true -> forall x y z, e_min e (e_min e x y) z = e_min e x (e_min e y z).
Proof. intros He. destruct e; try discriminate He; unfold e_min; apply mn_assoc; (apply le_s_total || apply le_u_total). Qed.
Lemma e_min_comm e : is_integer e = true -> forall x y, e_min e x y = e_min e y x.
Proof. intros He. destruct e; try discriminate He; unfold e_min; apply mn_comm; (apply le_s_total || apply le_u_total). Qed.
Lemma e_max_assoc e : is_integer e = true -> forall x y z, e_max e (e_max e x y) z = e_max e x (e_max e y z).
Proof. intros He. destruct e; try discriminate He; unfold e_max; apply mx_assoc; (apply le_s_total || apply le_u_total). Qed.
Lemma e_max_comm e : is_integer e = true -> forall x y, e_max e x y = e_max e y x.
Proof. intros He. destruct e; try discriminate He; unfold e_max; apply mx_comm; (apply le_s_total || apply le_u_total). Qed.

Section Native.
  Variables (sse41 : bool) (e : etype).
  Hypothesis He : is_integer e = true.
  Lemma hmin_ok xs : length xs = (16 / esize e)%nat -> reduce_spec (e_min e) xs = Some (v_min_all sse41 e (pack xs)).
  Proof.
    intros L. assert (E : v_min_all sse41 e (pack xs) = h_reduce e (v_min sse41 e) (pack xs)) by (destruct e; try discriminate He; reflexivity).
    rewrite E. apply h_reduce_ok; auto. apply v_min_pack. now apply e_min_assoc. now apply e_min_comm.
  Qed.
  Lemma hmax_ok xs : length xs = (16 / esize e)%nat -> reduce_spec (e_max e) xs = Some (v_max_all sse41 e (pack xs)).
  Proof.
    intros L. assert (E : v_max_all sse41 e (pack xs) = h_reduce e (v_max sse41 e) (pack xs)) by (destruct e; try discriminate He; reflexivity).
    rewrite E. apply h_reduce_ok; auto. apply v_max_pack. now apply e_max_assoc. now apply e_max_comm.
  Qed.
  Lemma sum_ok xs : length xs = (16 / esize e)%nat -> reduce_spec wadd xs = Some (v_sum e (pack xs)).
  Proof. intros L. apply h_reduce_ok; auto. apply v_add_pack. apply wadd_assoc. apply wadd_comm. Qed.
  Lemma product_ok xs : length xs = (16 / esize e)%nat -> reduce_spec wmul xs = Some (v_product sse41 e (pack xs)).
  Proof.
    intros L. assert (R : reduce_spec wmul xs = Some (h_reduce e (v_mul sse41 e) (pack xs))).
    { apply h_reduce_ok; auto. intros. now apply v_mul_pack. apply wmul_assoc. apply wmul_comm. }
    destruct e; try discriminate He; unfold v_product; try exact R; destruct sse41; try exact R.
    all: unfold elt in *; cbn [esize] in *; explode_to 4%nat xs L; rewrite lanes_pack by reflexivity; cbn [nth reduce_spec fold_left];
      f_equal; now rewrite !wmul_assoc.
  Qed.
End Native.

(** assignment and zeroing under a mask *)
Lemma v_assign_ok sse41 e (xs vs : list (elt e)) m : length xs = (16 / esize e)%nat -> length vs = length xs -> length m = length xs ->
  v_assign sse41 (pack xs) (pack vs) (mask_reg (esize e) m) = pack (masked_update_spec m vs xs).
Proof.
  intros L Lv Lm. unfold v_assign, mask_reg. rewrite blendv_pack by auto. f_equal. unfold masked_update_spec.
  clear L. unfold elt in *. revert vs m Lv Lm. induction xs as [|x xs IH]; intros [|v vs] [|b m] Lv Lm; cbn in *; try discriminate; auto.
  rewrite IH by lia. now destruct b.
Qed.
Lemma v_set_zero_inverted_ok e (xs : list (elt e)) m : length m = length xs ->
  v_set_zero_inverted (pack xs) (mask_reg (esize e) m) = pack (map2 (fun x (b : bool) => if b then x else w0 (esize e)) xs m).
Proof.
  intros Lm. unfold v_set_zero_inverted, mask_reg. rewrite and_pack by (now rewrite map_length). f_equal. rewrite map2_map_l.
  revert m Lm. unfold elt in *. induction xs as [|x xs IH]; intros [|b m] Lm; cbn in *; try discriminate; auto.
  rewrite IH by lia. now rewrite wand_mask.
Qed.
Lemma v_set_zero_ok e (xs : list (elt e)) m : length m = length xs ->
  v_set_zero (pack xs) (mask_reg (esize e) m) = pack (map2 (fun x (b : bool) => if b then w0 (esize e) else x) xs m).
Proof.
  intros Lm. unfold v_set_zero, mask_reg. rewrite andnot_pack by (now rewrite map_length). f_equal. rewrite map2_map_l.
  revert m Lm. unfold elt in *. induction xs as [|x xs IH]; intros [|b m] Lm; cbn in *; try discriminate; auto.
  rewrite IH by lia. now rewrite wandnot_mask.
Qed.

(** masked reductions: neutral elements *)
Definition e_max_value (e : etype) : elt e := match e with Short | Int => mkw _ (sign_weight (esize e) - 1) | _ => mkw _ (-1) end.
Definition e_min_value (e : etype) : elt e := match e with Short | Int => mkw _ (sign_weight (esize e)) | _ => w0 _ end.
Lemma limit_max_pack e : is_integer e = true -> v_limit_max e = pack (repeat (e_max_value e) (16 / esize e)).
Proof. destruct e; intros H; try discriminate H; vm_compute; reflexivity. Qed.
Lemma limit_min_pack e : is_integer e = true -> v_limit_min e = pack (repeat (e_min_value e) (16 / esize e)).
Proof. destruct e; intros H; try discriminate H; vm_compute; reflexivity. Qed.
Lemma s2_range (x : word 2) : -32768 <= sval x <= 32767.
Proof. pose proof (sval_range x ltac:(lia)) as R. change (modulus 2 / 2) with 32768 in R. lia. Qed.
Lemma u2_range (x : word 2) : 0 <= uval x <= 65535.
Proof. pose proof (uval_range x) as R. change (modulus 2) with 65536 in R. lia. Qed.
Lemma s4_range (x : word 4) : -2147483648 <= sval x <= 2147483647.
Proof. pose proof (sval_range x ltac:(lia)) as R. change (modulus 4 / 2) with 2147483648 in R. lia. Qed.
Lemma u4_range (x : word 4) : 0 <= uval x <= 4294967295.
Proof. pose proof (uval_range x) as R. change (modulus 4) with 4294967296 in R. lia. Qed.
Lemma e_le_max e : is_integer e = true -> forall x, e_le e x (e_max_value e) = true.
Proof.
  intros He x. destruct e; try discriminate He; unfold e_le, le_s, le_u; apply Z.leb_le.
  - exact (proj2 (s2_range x)).
  - exact (proj2 (u2_range x)).
  - exact (proj2 (s4_range x)).
  - exact (proj2 (u4_range x)).
Qed.
Lemma e_ge_min e : is_integer e = true -> forall x, e_le e (e_min_value e) x = true.
Proof.
  intros He x. destruct e; try discriminate He; unfold e_le, le_s, le_u; apply Z.leb_le.
  - exact (proj1 (s2_range x)).
  - exact (proj1 (u2_range x)).
  - exact (proj1 (s4_range x)).
  - exact (proj1 (u4_range x)).
Qed.
Lemma e_min_neutral e : is_integer e = true -> forall x, e_min e x (e_max_value e) = x.
Proof.
  intros He x. pose proof (e_le_max e He x) as L.
  destruct e; try discriminate He; unfold e_min; unfold e_le in L; now rewrite L.
Qed.
Lemma e_max_neutral e : is_integer e = true -> forall x, e_max e (e_min_value e) x = x.
Proof.
  intros He x. pose proof (e_ge_min e He x) as L.
  destruct e; try discriminate He; unfold e_max; unfold e_le in L; now rewrite L.
Qed.

(** a reduction over the selected entries padded with a neutral element *)
Section Neutral.
  Context {A : Type} (f : A -> A -> A) (z : A).
  Hypothesis assoc : forall x y z, f (f x y) z = f x (f y z).
  Hypothesis zr : forall x, f x z = x.
  Hypothesis zl : forall x, f z x = x.
  Lemma fold_neutral : forall xs a, fold_left f xs a = f a (fold_left f xs z).
  Proof.
    induction xs as [|x xs IH]; intros a; cbn; [now rewrite zr|]. rewrite IH, (IH (f z x)), zl. apply assoc.
  Qed.
  Lemma fold_masked : forall m xs, length m = length xs ->
    fold_left f (masked_update_spec m xs (repeat z (length xs))) z = fold_left f (select_spec m xs) z.
  Proof.
    unfold masked_update_spec. induction m as [|b m IH]; intros [|x xs] L; cbn in *; try discriminate; auto.
    rewrite fold_neutral, IH by lia. destruct b; cbn; rewrite ?zl; auto. symmetry. apply fold_neutral.
  Qed.
  Lemma reduce_fold xs : xs <> [] -> reduce_spec f xs = Some (fold_left f xs z).
  Proof. destruct xs as [|x xs]; [easy|]. intros _. cbn. now rewrite zl. Qed.
  Lemma reduce_masked_neutral m xs : length m = length xs -> ~ none_spec m ->
    reduce_spec f (select_spec m xs) = reduce_spec f (masked_update_spec m xs (repeat z (length xs))).
  Proof.
    intros L H. rewrite !reduce_fold; [now rewrite fold_masked| |].
    - destruct m as [|b m]; [exfalso; apply H; intros ? []|]. destruct xs; [discriminate L|]. cbn. discriminate.
    - intros E. apply H. clear H. revert xs L E. induction m as [|b m IH]; intros [|x xs] L E; cbn in *; try discriminate; intros c [].
      + subst. destruct c; auto. discriminate.
      + destruct b; cbn in E; [discriminate|]. eapply IH; eauto.
  Qed.
End Neutral.

Section MaskedNative.
  Variables (sse41 : bool) (e : etype) (m : list bool) (xs : list (elt e)).
  Hypothesis He : is_integer e = true.
  Hypothesis L : length xs = (16 / esize e)%nat.
  Hypothesis Lm : length m = length xs.
  Hypothesis HN : ~ none_spec m.
  Lemma upd_len z : length (masked_update_spec m xs (repeat z (length xs))) = (16 / esize e)%nat.
  Proof. unfold masked_update_spec. rewrite map3_length; rewrite ?repeat_length; auto. congruence. Qed.
  Lemma assign_pad z : v_assign sse41 (pack (repeat z (16 / esize e))) (pack xs) (mask_reg (esize e) m) = pack (masked_update_spec m xs (repeat z (length xs))).
  Proof. rewrite <- L. apply v_assign_ok; rewrite ?repeat_length; auto. Qed.
  Lemma hmin_masked : reduce_spec (e_min e) (select_spec m xs) = Some (v_min_masked sse41 e (pack xs) (mask_reg (esize e) m)).
  Proof.
    unfold v_min_masked. rewrite limit_max_pack, assign_pad by auto. rewrite <- hmin_ok by (auto; apply upd_len).
    apply reduce_masked_neutral; auto. now apply e_min_assoc. now apply e_min_neutral. intros. rewrite e_min_comm by auto. now apply e_min_neutral.
  Qed.
  Lemma hmax_masked : reduce_spec (e_max e) (select_spec m xs) = Some (v_max_masked sse41 e (pack xs) (mask_reg (esize e) m)).
  Proof.
    unfold v_max_masked. rewrite limit_min_pack, assign_pad by auto. rewrite <- hmax_ok by (auto; apply upd_len).
    apply reduce_masked_neutral; auto. now apply e_max_assoc. intros. rewrite e_max_comm by auto. now apply e_max_neutral. now apply e_max_neutral.
  Qed.
  Lemma sum_masked : reduce_spec wadd (select_spec m xs) = Some (v_sum_masked sse41 e (pack xs) (mask_reg (esize e) m)).
  Proof.
    unfold v_sum_masked. rewrite (setzero_pack (esize e)) by apply esize_lane. rewrite assign_pad. rewrite <- sum_ok by (auto; apply upd_len).
    apply reduce_masked_neutral; auto. apply wadd_assoc. intros. rewrite wadd_comm. apply wadd_0_l. apply wadd_0_l.
  Qed.
  Lemma product_masked : reduce_spec wmul (select_spec m xs) = Some (v_product_masked sse41 e (pack xs) (mask_reg (esize e) m)).
  Proof.
    unfold v_product_masked, set1. rewrite assign_pad. rewrite <- product_ok by (auto; apply upd_len).
    apply reduce_masked_neutral; auto. apply wmul_assoc. intros. rewrite wmul_comm. apply wmul_1_l. apply wmul_1_l.
  Qed.
End MaskedNative.
