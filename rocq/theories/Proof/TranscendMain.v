(** sin, cos, sincos, asin, atan, atan2, log, log2, log10 and exp: parity, special values, independence of the entries (proofs). *)
From Coq Require Import ZArith List Bool Lia.
From Verif.Spec Require Import Seq FloatSpec RoundSpec MathSpec TransSpec.
From Verif.Model Require Import Word Fp FpArith Transcend.
Import ListNotations.
Local Open Scope Z_scope.
From Verif.Proof Require Import WordP SeqP FpP FpArithP FpIntP ConvertP ConvertRegP MathP TranscendP Transcend2P Transcend3P.

Lemma C52_float_parity_main :
  forall c xs ys, same_but_signs xs ys -> forall i, an_entry xs i ->
    entry (cos4 c ys) i = entry (cos4 c xs) i /\
    (sign_bit (entry xs i) = sign_bit (entry ys i) -> entry (sin4 c ys) i = entry (sin4 c xs) i) /\
    (sign_bit (entry xs i) <> sign_bit (entry ys i) -> negated (entry (sin4 c xs) i) (entry (sin4 c ys) i)).
Proof.
  intros c xs ys H i Hi. pose proof (agree_intro fp4 xs ys H) as A. destruct H as (L & H). specialize (H i Hi). unfold an_entry in Hi. unfold entry in *.
  rewrite !znth_in in * by (rewrite ?cos4_length, ?sin4_length; lia).
  rewrite !cos4_nth, !sin4_nth by lia. rewrite <- !(agree_branch4 c _ xs ys _ A). set (x := nth (Z.to_nat i) xs _) in *. set (y := nth (Z.to_nat i) ys _) in *.
  pose proof (up_to_sign fp4 x y H) as Y. destruct (Bool.eqb (sign_bit x) (sign_bit y)) eqn:E.
  - apply eqb_prop in E. split; [now rewrite Y|]. split; [intros _; now rewrite Y|]. intros N. destruct (N E).
  - apply eqb_false_iff in E. split; [rewrite Y; apply cos4_lane_neg|]. split; [intros K; destruct (E K)|]. intros _. apply (negated_fneg fp4). rewrite Y. apply sin4_lane_neg.
Qed.

Lemma C52_double_parity_main :
  forall xs ys, same_but_signs xs ys -> forall i, an_entry xs i ->
    entry (cos8 ys) i = entry (cos8 xs) i /\
    (sign_bit (entry xs i) = sign_bit (entry ys i) -> entry (sin8 ys) i = entry (sin8 xs) i) /\
    (sign_bit (entry xs i) <> sign_bit (entry ys i) -> negated (entry (sin8 xs) i) (entry (sin8 ys) i)).
Proof.
  intros xs ys H i Hi. pose proof (agree_intro fp8 xs ys H) as A. unfold magnitudes_agree in A. destruct H as (L & H). specialize (H i Hi). unfold an_entry in Hi. unfold entry in *.
  rewrite !znth_in in * by (rewrite ?cos8_length, ?sin8_length; lia). rewrite !cos8_map, !sin8_map, <- A. set (b := branch8 (map l_abs xs)).
  rewrite !(nth_map _ xs (Z.to_nat i) (w0 8)), !(nth_map _ ys (Z.to_nat i) (w0 8)) by lia. set (x := nth (Z.to_nat i) xs _) in *. set (y := nth (Z.to_nat i) ys _) in *. clearbody b.
  pose proof (up_to_sign fp8 x y H) as Y. destruct (Bool.eqb (sign_bit x) (sign_bit y)) eqn:E.
  - apply eqb_prop in E. split; [now rewrite Y|]. split; [intros _; now rewrite Y|]. intros N. destruct (N E).
  - apply eqb_false_iff in E. split; [rewrite Y; apply cos8_lane_neg|]. split; [intros K; destruct (E K)|]. intros _. apply (negated_fneg fp8). rewrite Y. apply sin8_lane_neg.
Qed.

Lemma C52_float_special_main :
  forall c xs i, an_entry xs i ->
    (is_NaN (entry xs i) = true \/ is_Inf (entry xs i) = true -> is_NaN (entry (sin4 c xs) i) = true /\ is_NaN (entry (cos4 c xs) i) = true) /\
    (is_Zero (entry xs i) -> entry (sin4 c xs) i = entry xs i /\ has_value (entry (cos4 c xs) i) 1).
Proof.
  intros c xs i Hi. unfold an_entry in Hi. unfold entry. rewrite !znth_in by (rewrite ?cos4_length, ?sin4_length; lia).
  rewrite sin4_nth, cos4_nth by lia. split.
  - rewrite (nan_ok fp4). intros B. destruct (bad4 c 527449 xs (Z.to_nat i) (w0 4) (or_introl eq_refl) ltac:(lia) B) as (S1 & _).
    destruct (bad4 c 393382 xs (Z.to_nat i) (w0 4) (or_intror eq_refl) ltac:(lia) B) as (_ & S2). rewrite !(nan_ok fp4). now split.
  - intros Z. split; [exact (sin4_zeros _ _ Z)|]. rewrite (cos4_zeros _ _ Z). exact one_value4.
Qed.

Lemma C52_double_special_main :
  forall xs i, an_entry xs i ->
    (is_NaN (entry xs i) = true \/ is_Inf (entry xs i) = true -> is_NaN (entry (sin8 xs) i) = true /\ is_NaN (entry (cos8 xs) i) = true) /\
    (is_Zero (entry xs i) -> entry (sin8 xs) i = entry xs i /\ has_value (entry (cos8 xs) i) 1).
Proof.
  intros xs i Hi. unfold an_entry in Hi. unfold entry. rewrite !znth_in by (rewrite ?cos8_length, ?sin8_length; lia).
  assert (HI : (Z.to_nat i < length xs)%nat) by lia. pose proof (nth_In xs (w0 8) HI) as IN. split.
  - rewrite (nan_ok fp8). intros B. pose proof (sin8_bad xs _ IN B) as S1. pose proof (cos8_bad xs _ IN B) as S2. rewrite sin8_map, cos8_map, !(nth_map _ xs (Z.to_nat i) (w0 8)) by exact HI.
    rewrite !(nan_ok fp8). now split.
  - rewrite sin8_map, cos8_map, !(nth_map _ xs (Z.to_nat i) (w0 8)) by exact HI. set (b := branch8 (map l_abs xs)). clearbody b.
    intros Z. split; [exact (sin8_zeros _ _ Z)|]. rewrite (cos8_zeros _ _ Z). exact one_value8.
Qed.

Lemma C52_double_large_refuted_main :
  exists x y : word 8, Z.abs (fvalue x - fvalue y) * 2 ^ 19 = fone 8 /\
    fone 8 < Z.abs (fvalue (entry (sin8 [x; x]) 0) - fvalue (entry (sin8 [y; y]) 0)).
Proof.
  exists (double_bits 0x42000000000b2a72), (double_bits 0x42000000000b2a73). split; [vm_compute; reflexivity|]. apply Z.ltb_lt. vm_cast_no_check (eq_refl true).
Qed.

Lemma C53_float_independent_partial_main :
  forall c xs ys, Forall (within 25) xs -> Forall (within 25) ys -> forall i, an_entry xs i -> an_entry ys i -> entry xs i = entry ys i ->
    entry (sin4 c xs) i = entry (sin4 c ys) i /\ entry (cos4 c xs) i = entry (cos4 c ys) i.
Proof.
  intros c xs ys Hx Hy i Hi Hj E. unfold an_entry in *. unfold entry in *. rewrite !znth_in in * by (rewrite ?sin4_length, ?cos4_length; lia).
  destruct (near_lane4 c xs (Z.to_nat i) (w0 4) Hx ltac:(lia)) as (S1 & C1), (near_lane4 c ys (Z.to_nat i) (w0 4) Hy ltac:(lia)) as (S2 & C2). rewrite S1, C1, S2, C2, E. split; reflexivity.
Qed.

Lemma C53_double_independent_partial_main :
  forall xs ys, Forall (within 805) xs -> Forall (within 805) ys -> forall i, an_entry xs i -> an_entry ys i -> entry xs i = entry ys i ->
    entry (sin8 xs) i = entry (sin8 ys) i /\ entry (cos8 xs) i = entry (cos8 ys) i.
Proof.
  intros xs ys Hx Hy i Hi Hj E. unfold an_entry in *. unfold entry in *. rewrite !znth_in in * by (rewrite ?sin8_length, ?cos8_length; lia).
  destruct (near_lane8 xs (Z.to_nat i) (w0 8) Hx ltac:(lia)) as (S1 & C1), (near_lane8 ys (Z.to_nat i) (w0 8) Hy ltac:(lia)) as (S2 & C2). rewrite S1, C1, S2, C2, E. split; reflexivity.
Qed.

Lemma C53_float_independent_refuted_main :
  forall c, exists x, entry (sin4 c [x; one 4; one 4; one 4]) 0 <> entry (sin4 c [x; one 4; one 4; of_int 4 100]) 0.
Proof.
  intros c. exists (float_bits 0x40490fe8). apply differ. vm_cast_no_check (eq_refl false).
Qed.

Lemma C53_double_independent_refuted_main :
  exists x, entry (cos8 [x; one 8]) 0 <> entry (cos8 [x; of_int 8 1000000]) 0.
Proof.
  exists (double_bits 0x3ff921fb54442d18). apply differ. vm_cast_no_check (eq_refl false).
Qed.

Lemma C54_double_sincos_main :
  forall xs, sincos8 xs = (sin8 xs, cos8 xs).
Proof.
  intros xs. reflexivity.
Qed.

Lemma C54_float_sincos_partial_main :
  forall c xs, Forall (within 393381) xs \/ (exists i, an_entry xs i /\ is_Finite (entry xs i) = true /\ 527449 * fone 4 <= Z.abs (fvalue (entry xs i))) ->
    sincos4 c xs = (sin4 c xs, cos4 c xs).
Proof.
  intros c xs [H|(i & Hi & F & V)]; unfold sincos4, sin4, cos4.
  - rewrite (not_large c 393382 393381 xs), (not_large c 527449 393381 xs) by (auto; lia). reflexivity.
  - unfold an_entry in Hi. unfold entry in *. rewrite znth_in in * by lia. assert (I : In (nth (Z.to_nat i) xs (w0 4)) xs) by (apply nth_In; lia).
    rewrite (is_large c 527449 xs _ (or_introl eq_refl) I F V), (is_large c 393382 xs _ (or_intror eq_refl) I F) by (change (fone 4) with (2 ^ 149) in *; lia). reflexivity.
Qed.

Lemma C54_float_sincos_refuted_main :
  forall c, exists x, fst (sincos4 c [x; x; x; x]) <> sin4 c [x; x; x; x].
Proof.
  intros c. exists (of_int 4 393388). apply differ_hd. vm_cast_no_check (eq_refl false).
Qed.

Lemma C55_log_special_main :
  forall w b (x : word w), w = 4%nat \/ w = 8%nat ->
    (is_NaN x = false -> fvalue x < 0 -> is_NaN (log_calc w b x) = true) /\
    (is_Zero x -> infinity true (log_calc w b x)) /\
    (x = of_int w 1 -> log_calc w b x = w0 w).
Proof.
  intros w b x Hw. change (fp_width w) in Hw. split; [|split].
  - rewrite !(nan_ok Hw). apply (log_negative Hw).
  - intros Z. rewrite (log_zero Hw b x Z). destruct Hw as [->| ->]; vm_compute; split; reflexivity.
  - intros ->. apply (log_one Hw).
Qed.

Lemma C55_log2_exact_main :
  forall w (x : word w) k, w = 4%nat \/ w = 8%nat -> is_power_of_two x k -> has_value (log_calc w Base2 x) k.
Proof.
  intros w x k Hw. exact (log2_power Hw x k).
Qed.

Lemma C55_log_not_finite_refuted_main :
  forall w b, w = 4%nat \/ w = 8%nat -> is_Finite (log_calc w b (pos_inf w)) = true /\ is_Finite (log_calc w b (a_nan w)) = true.
Proof.
  intros w b [->| ->]; destruct b; vm_compute; split; reflexivity.
Qed.

Lemma C56_float_exp_main :
  forall sse41 c (x : word 4),
    (is_NaN x = false -> 89 * fone 4 <= fvalue x -> infinity false (exp4 sse41 c x)) /\
    (is_NaN x = false -> fvalue x <= - 104 * fone 4 -> exp4 sse41 c x = w0 4) /\
    (is_Zero x -> exp4 sse41 c x = of_int 4 1) /\
    (is_NaN x = true -> if gt_on_nan c then infinity false (exp4 sse41 c x) else is_NaN (exp4 sse41 c x) = true).
Proof.
  intros sse41 c x. assert (LIM : fvalue maxlogf < 89 * fone 4 /\ - 104 * fone 4 < fvalue minlogf) by (vm_compute; split; reflexivity). destruct LIM as (L1 & L2).
  rewrite !(nan_ok fp4). split; [|split; [|split]].
  - intros N V. rewrite (exp4_over sse41 c x N) by lia. vm_compute. split; reflexivity.
  - intros N V. apply exp4_under; [exact N|lia].
  - apply exp4_zero.
  - intros N. destruct (exp4_nan sse41 c x N) as [(E & ->)|(E & ->)]; [rewrite E; vm_compute; split; reflexivity|exact E].
Qed.

Lemma C56_double_exp_main :
  forall sse41 c (x : word 8),
    (is_NaN x = false -> 710 * fone 8 <= fvalue x -> infinity false (exp8 sse41 c x)) /\
    (is_NaN x = false -> fvalue x <= - 746 * fone 8 -> exp8 sse41 c x = w0 8) /\
    (is_Zero x -> exp8 sse41 c x = of_int 8 1) /\
    (is_NaN x = true -> if gt_on_nan c then infinity false (exp8 sse41 c x) else is_NaN (exp8 sse41 c x) = true).
Proof.
  intros sse41 c x. assert (LIM : fvalue maxlog < 710 * fone 8 /\ - 746 * fone 8 < fvalue minlog) by (vm_compute; split; reflexivity). destruct LIM as (L1 & L2).
  rewrite !(nan_ok fp8). split; [|split; [|split]].
  - intros N V. rewrite (exp8_over sse41 c x N) by lia. vm_compute. split; reflexivity.
  - intros N V. apply exp8_under; [exact N|lia].
  - apply exp8_zero.
  - intros N. destruct (exp8_nan sse41 c x N) as [(E & ->)|(E & ->)]; [rewrite E; vm_compute; split; reflexivity|exact E].
Qed.

Lemma C56_double_exp_range_refuted_main :
  forall sse41 c, exists x x2 y : word 8, fvalue x2 = 2 * fvalue x /\
    is_Finite (fmul (exp8 sse41 c x) (exp8 sse41 c x)) = true /\ infinity false (exp8 sse41 c x2) /\
    y = fneg x /\ 0 < fvalue (fmul (exp8 sse41 c y) (exp8 sse41 c y)) /\ exp8 sse41 c (fneg x2) = w0 8.
Proof.
  intros sse41 c. exists (flit 8 3545 1), (of_int 8 709), (fneg (flit 8 3545 1)).
  split; [vm_compute; reflexivity|]. split; [destruct sse41; vm_compute; reflexivity|]. split; [destruct sse41; vm_compute; split; reflexivity|]. split; [reflexivity|].
  split; [destruct sse41; vm_compute; reflexivity|]. apply exp8_under; vm_compute; reflexivity.
Qed.

Lemma C56_float_exp_denormal_refuted_main :
  forall sse41 c, 0 < fvalue (exp4 sse41 c (of_int 4 (- 88))) /\
    10 * fvalue (exp4 sse41 c (of_int 4 (- 88))) < fvalue (fmul (exp4 sse41 c (of_int 4 (- 44))) (exp4 sse41 c (of_int 4 (- 44)))).
Proof.
  intros sse41 c. destruct sse41; vm_compute; split; reflexivity.
Qed.

Lemma C57_float_asin_main :
  forall c (x : word 4),
    (is_NaN x = true \/ fone 4 < Z.abs (fvalue x) -> is_NaN (asin4 c x) = true) /\
    (is_NaN x = false -> fvalue x <> 0 -> Z.abs (fvalue x) <= fone 4 -> forall y, negated x y -> negated (asin4 c x) (asin4 c y)) /\
    (is_NaN x = false -> fvalue x <> 0 -> 2 ^ 14 * Z.abs (fvalue x) <= fone 4 -> asin4 c x = x) /\
    (x = of_int 4 1 -> asin4 c x = half_pi 4) /\
    (is_Zero x -> is_Zero (asin4 c x)).
Proof.
  intros c x. assert (NZ : fvalue x <> 0 -> is_zero x = false) by (intros V; rewrite (is_zero_value fp4), (fabs_abs fp4); apply Z.eqb_neq; lia).
  rewrite !(nan_ok fp4). split; [|split; [|split; [|split]]].
  - intros [N|V]; [now apply asin4_nan|]. destruct (is_nan x) eqn:N; [now apply asin4_nan|now apply asin4_range].
  - intros N V R y Y. apply (negated_fneg fp4) in Y. rewrite Y. apply (negated_fneg fp4). now apply asin4_odd; auto.
  - intros N V S. apply asin4_small; auto. assert (L : fone 4 < 2 ^ 14 * fvalue small_asin4) by (vm_compute; reflexivity). lia.
  - intros ->. apply word_ext. vm_compute. reflexivity.
  - intros Z. destruct (zero_cases fp4 x Z) as [-> | ->]; vm_compute; split; reflexivity.
Qed.

Lemma C57_double_asin_main :
  forall c (x : word 8),
    (is_NaN x = true \/ fone 8 < Z.abs (fvalue x) -> is_NaN (asin8 c x) = true) /\
    (is_NaN x = false -> Z.abs (fvalue x) <= fone 8 -> forall y, negated x y -> negated (asin8 c x) (asin8 c y)) /\
    (is_NaN x = false -> 2 ^ 27 * Z.abs (fvalue x) <= fone 8 -> asin8 c x = x) /\
    (x = of_int 8 1 -> asin8 c x = half_pi 8).
Proof.
  intros c x. rewrite !(nan_ok fp8). split; [|split; [|split]].
  - intros [N|V]; [now apply asin8_nan|]. destruct (is_nan x) eqn:N; [now apply asin8_nan|now apply asin8_range].
  - intros N R y Y. apply (negated_fneg fp8) in Y. rewrite Y. apply (negated_fneg fp8). now apply asin8_odd.
  - intros N S. apply asin8_small; auto. assert (L : fone 8 < 2 ^ 27 * fvalue small_asin8) by (vm_compute; reflexivity). lia.
  - intros ->. apply word_ext. vm_compute. reflexivity.
Qed.

Lemma C57_atan_main :
  forall w c (x : word w), w = 4%nat \/ w = 8%nat ->
    (is_NaN x = true -> is_NaN (atan w c x) = true) /\
    (is_NaN x = false -> fvalue x <> 0 -> forall y, negated x y -> negated (atan w c x) (atan w c y)) /\
    (is_Inf x = true -> signed_as x (half_pi w) (atan w c x)) /\
    (is_Zero x -> atan w c x = w0 w).
Proof.
  intros w c x Hw. change (fp_width w) in Hw. rewrite !(nan_ok Hw), (inf_ok Hw). split; [|split; [|split]].
  - apply (atan_nan Hw).
  - intros N V y Y. apply (negated_fneg Hw) in Y. rewrite Y. apply (negated_fneg Hw). apply (atan_odd Hw); auto. rewrite (is_zero_value Hw), (fabs_abs Hw). apply Z.eqb_neq. lia.
  - intros I. rewrite (atan_inf Hw c x I). unfold signed_as. rewrite (same_mag Hw), !(sign_bit_neg Hw), (magnitude_with_sign Hw), (negative_with_sign Hw) by apply (mag_range Hw).
    split; [|reflexivity]. destruct Hw as [->| ->]; reflexivity.
  - intros Z. apply (atan_zero Hw). now apply (zero_iff Hw).
Qed.

Lemma C57_minus_zero_refuted_main :
  forall c, asin4 c (neg_zero 4) = pos_zero 4 /\ atan 4 c (neg_zero 4) = pos_zero 4 /\ atan 8 c (neg_zero 8) = pos_zero 8.
Proof.
  intros c. split; [apply word_ext; vm_compute; reflexivity|]. split; apply atan_zero; vm_compute; auto.
Qed.

Lemma C57_atan2_special_main :
  forall w c (y x : word w), w = 4%nat \/ w = 8%nat ->
    (is_NaN y = true \/ is_NaN x = true -> is_NaN (atan2 c y x) = true) /\
    (is_NaN y = false -> is_NaN x = false ->
      (is_Zero y -> signed_as y (if sign_bit x then whole_pi w else w0 w) (atan2 c y x)) /\
      (fvalue y <> 0 -> is_Zero x -> signed_as y (half_pi w) (atan2 c y x)) /\
      (is_Finite y = true -> is_Inf x = true -> signed_as y (if sign_bit x then whole_pi w else w0 w) (atan2 c y x)) /\
      (is_Inf y = true -> is_Finite x = true -> signed_as y (half_pi w) (atan2 c y x)) /\
      (is_Inf y = true -> is_Inf x = true -> signed_as y (if sign_bit x then three_quarter_pi w else quarter_pi w) (atan2 c y x))).
Proof.
  intros w c y x Hw. change (fp_width w) in Hw. rewrite !(nan_ok Hw), !(inf_ok Hw), !(sign_bit_neg Hw). split; [apply (atan2_nan Hw)|]. intros Ny Nx.
  assert (SG : forall (n : bool) (p : word w) m, m = magnitude p -> n = negative y -> signed_as y p (with_sign w n m)).
  { intros n p m -> ->. unfold signed_as. rewrite (same_mag Hw), !(sign_bit_neg Hw), (magnitude_with_sign Hw), (negative_with_sign Hw) by apply (mag_range Hw). now split. }
  assert (K : magnitude (pi w) = magnitude (whole_pi w) /\ magnitude (pi_2 w) = magnitude (half_pi w) /\ 0 = magnitude (w0 w)) by (destruct Hw as [->| ->]; vm_compute; repeat split).
  destruct K as (K1 & K2 & K3). split; [|split; [|split; [|split]]].
  - intros Z. apply (zero_iff Hw) in Z. rewrite (atan2_y_zero Hw c y x Z Nx). apply SG; [|reflexivity]. destruct (negative x); auto.
  - intros V Z. apply (zero_iff Hw) in Z. rewrite (atan2_x_zero Hw c y x Ny); [apply SG; auto| |exact Z]. rewrite (is_zero_value Hw), (fabs_abs Hw). apply Z.eqb_neq. lia.
  - intros F I. rewrite (atan2_x_inf Hw c y x F I). apply SG; [|reflexivity]. destruct (negative x); auto.
  - intros I F. rewrite (atan2_y_inf Hw c y x I F). apply SG; auto.
  - intros I J. rewrite (atan2_both_inf Hw c y x I J). apply SG; reflexivity.
Qed.

Lemma C57_atan2_odd_main :
  forall w c (y z x : word w), w = 4%nat \/ w = 8%nat -> is_NaN y = false -> is_NaN x = false -> negated y z ->
    negated (atan2 c y x) (atan2 c z x) \/ is_NaN (atan2 c y x) = true /\ is_NaN (atan2 c z x) = true.
Proof.
  intros w c y z x Hw. change (fp_width w) in Hw. rewrite !(nan_ok Hw). intros Ny Nx Y. apply (negated_fneg Hw) in Y. rewrite Y.
  destruct (atan2_odd Hw c y x Ny Nx) as [B|E]; [now right|left]. now apply (negated_fneg Hw).
Qed.
