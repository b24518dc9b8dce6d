(** floating-point functions of the AVX vectors (proofs). *)
From Coq Require Import ZArith List Bool Lia.
From Verif.Spec Require Import Seq FloatSpec RoundSpec CastSpec MathSpec.
From Verif.Model Require Import Word Fp FpArith SseReg SseMove SortNet SseInt SseBuild SseArith SseMask SimdArray Mem SseConvert SseMath AvxReg AvxMove AvxBuild AvxShuffle AvxMask AvxArith AvxConvert AvxMath.
Import ListNotations.
Local Open Scope Z_scope.
From Verif.Proof Require Import WordP SseMoveP SseIntP SseEmulP SseArithP SseMaskP FpP FpArithP FpIntP ConvertP ConvertRegP SimdArrayOpsP MathP MathMain AvxShuffleP AvxMaskP AvxArithP AvxConvertP AvxMathP SseBuildP.

Lemma C38_avx_classification_main :
  forall w (xs : list (word w)), w = 4%nat \/ w = 8%nat -> length xs = (32 / w)%nat ->
    y_isnan w (ypack xs) = ymask_reg w (map is_NaN xs) /\
    y_isinf w (ypack xs) = ymask_reg w (map is_Inf xs) /\
    y_isfinite w (ypack xs) = ymask_reg w (map is_Finite xs) /\
    y_isnegative w (ypack xs) = ymask_reg w (map sign_bit xs).
Proof.
  intros w xs Hw L. split; [|split; [|split]]; [apply y_isnan_ok|apply y_isinf_ok|apply y_isfinite_ok|apply y_isnegative_ok]; auto.
Qed.

Lemma C38_avx_abs_copysign_main :
  forall w (xs ys : list (word w)), w = 4%nat \/ w = 8%nat -> length xs = (32 / w)%nat -> length ys = (32 / w)%nat ->
    Forall2 (fun x y => same_magnitude x y /\ sign_bit y = false) xs (ylanes w (y_fabs w (ypack xs))) /\
    Forall2 (fun xy r => same_magnitude (fst xy) r /\ sign_bit r = sign_bit (snd xy)) (combine xs ys) (ylanes w (y_copysign w (ypack xs) (ypack ys))).
Proof.
  intros w xs ys Hw L Ly. split.
  - rewrite y_fabs_ok by auto. rewrite ylanes_map by auto. apply forall2_map. intros x. now apply with_sign_same.
  - rewrite y_copysign_ok by auto. rewrite ylanes_ypack; [|now apply fp_w|rewrite map2_length, L, Ly; apply Nat.min_id]. clear L Ly. revert ys.
    induction xs as [|x xs IH]; intros [|y ys]; cbn [combine map2]; constructor; auto. cbn [fst snd]. rewrite (sign_bit_neg Hw y). now apply with_sign_same.
Qed.

Lemma C36_avx_main :
  forall w (xs : list (word w)), w = 4%nat \/ w = 8%nat -> length xs = (32 / w)%nat ->
    let ok R x y := rounded_value R x y /\ (is_Finite x = true -> sign_bit y = sign_bit x) in
    Forall2 (ok is_trunc) xs (ylanes w (y_trunc w (ypack xs))) /\
    Forall2 (ok is_floor) xs (ylanes w (y_floor w (ypack xs))) /\
    Forall2 (ok is_ceil) xs (ylanes w (y_ceil w (ypack xs))) /\
    Forall2 (ok is_round) xs (ylanes w (y_round w (ypack xs))).
Proof.
  intros w xs Hw L ok. unfold y_trunc, y_floor, y_ceil, y_round. rewrite !y_round_ok, !ylanes_map by auto.
  split; [|split; [|split]]; apply forall2_map; intros x; [apply (round_to_ok Hw ToZero)|apply (round_to_ok Hw Down)|apply (round_to_ok Hw Up)|apply (round_to_ok Hw ToNearest)].
Qed.

Lemma frexp_pairs {w} (Hw : fp_width w) (xs : list (word w)) :
  Forall2 (fun x me => frexp_ok x (fst me) (sval (snd me))) xs (combine (map (frexp_lane (w := w)) xs) (map (fun x => mkw 4 (frexp_exp (w := w) x)) xs)).
Proof.
  induction xs as [|x xs IH]; cbn [map combine]; constructor; auto. cbn [fst snd]. rewrite mkw4_sval by (now apply frexp_exp_range). now apply frexp_lane_ok.
Qed.

Lemma C37_avx_frexp_main :
  forall undef avx2,
    let ok (w : nat) (xs m : list (word w)) (e : list (word 4)) :=
      length m = length xs /\ length e = length xs /\ Forall2 (fun x me => frexp_ok x (fst me) (sval (snd me))) xs (combine m e) in
    (forall xs, length xs = 8%nat -> exists m e, y_frexp_ps undef avx2 (ypack xs) = Some (m, e) /\ ok 4%nat xs (ylanes 4 m) (ylanes 4 e)) /\
    (forall xs, length xs = 4%nat -> exists m e, y_frexp_pd avx2 (ypack xs) = Some (m, e) /\ ok 8%nat xs (ylanes 8 m) (lanes 4 e)) /\
    (forall xs ys, length xs = 4%nat -> length ys = 4%nat ->
       exists m0 m1 e, y_frexp_pd8 undef (ypack xs) (ypack ys) = Some (m0, m1, e) /\ ok 8%nat (xs ++ ys) (ylanes 8 m0 ++ ylanes 8 m1) (ylanes 4 e)).
Proof.
  intros undef avx2 ok.
  assert (K : forall w (Hw : fp_width w) xs, ok w xs (map (frexp_lane (w := w)) xs) (map (fun x => mkw 4 (frexp_exp (w := w) x)) xs)).
  { intros w Hw xs. split; [apply map_length|]. split; [apply map_length|]. now apply frexp_pairs. }
  split; [|split].
  - intros xs L. eexists _, _. split; [now apply y_frexp_ps_ok|]. rewrite !ylanes_ypack by (first [apply fp_w, fp4 | now rewrite map_length]). apply (K _ fp4).
  - intros xs L. eexists _, _. split; [now apply y_frexp_pd_ok|]. rewrite ylanes_ypack by (first [apply fp_w, fp8 | now rewrite map_length]). rewrite lanes_pack by (now rewrite map_length). apply (K _ fp8).
  - intros xs ys L L'. eexists _, _, _. split; [now apply y_frexp_pd8_ok|]. rewrite !ylanes_ypack by (first [apply fp_w, fp8 | apply fp_w, fp4 | rewrite map_length, ?app_length, ?L, ?L'; reflexivity]). rewrite <- map_app. apply (K _ fp8).
Qed.

Lemma C37_avx_ldexp_main :
  forall undef avx2,
    let ok (w : nat) x e y := (is_Normal x = true -> ldexp_in_range x e -> is_Finite y = true /\ scaled_by x e y) /\ (is_Finite x = true -> @fvalue w x = 0 -> y = x) in
    (forall xs es : list (word 4), length xs = 8%nat -> length es = 8%nat ->
       exists r, y_ldexp_ps undef avx2 (ypack xs) (ypack es) = Some r /\ Forall2 (fun xe y => ok 4%nat (fst xe) (sval (snd xe)) y) (combine xs es) (ylanes 4 r)) /\
    (forall (xs : list (word 8)) (es : list (word 4)), length xs = 4%nat -> length es = 4%nat ->
       exists r, y_ldexp_pd avx2 (ypack xs) (pack es) = Some r /\ Forall2 (fun xe y => ok 8%nat (fst xe) (sval (snd xe)) y) (combine xs es) (ylanes 8 r)).
Proof.
  intros undef avx2 ok.
  assert (K : forall w (Hw : fp_width w) (x : word w) e, ok w x e (ldexp_word x e)).
  { intros w Hw x e. split; [now apply ldexp_word_ok|]. intros F Z0. unfold ldexp_word. rewrite F, Z0. reflexivity. }
  assert (F : forall w (Hw : fp_width w) (xs : list (word w)) (es : list (word 4)), Forall2 (fun xe y => ok w (fst xe) (sval (snd xe)) y) (combine xs es) (map2 (fun x e => ldexp_word x (sval e)) xs es)).
  { intros w Hw. induction xs as [|x xs IH]; intros [|e es]; cbn [combine map2]; constructor; auto. }
  split; intros xs es L Le; eexists.
  - split; [now apply y_ldexp_ps_ok|]. rewrite ylanes_ypack by (first [apply fp_w, fp4 | rewrite map2_length, L, Le; reflexivity]). apply (F _ fp4).
  - split; [now apply y_ldexp_pd_ok|]. rewrite ylanes_ypack by (first [apply fp_w, fp8 | rewrite map2_length, L, Le; reflexivity]). apply (F _ fp8).
Qed.

Lemma C37_avx_round_trip_main :
  forall undef undef' avx2,
    (forall xs : list (word 4), length xs = 8%nat -> Forall (fun x => is_Finite x = true) xs ->
       exists m e, y_frexp_ps undef avx2 (ypack xs) = Some (m, e) /\ y_ldexp_ps undef' avx2 m e = Some (ypack xs)) /\
    (forall xs : list (word 8), length xs = 4%nat -> Forall (fun x => is_Finite x = true) xs ->
       exists m e, y_frexp_pd avx2 (ypack xs) = Some (m, e) /\ y_ldexp_pd avx2 m e = Some (ypack xs)).
Proof.
  intros undef undef' avx2.
  assert (K : forall w (Hw : fp_width w) (xs : list (word w)), Forall (fun x => is_Finite x = true) xs ->
    map2 (fun x e => ldexp_word x (sval e)) (map (frexp_lane (w := w)) xs) (map (fun x => mkw 4 (frexp_exp (w := w) x)) xs) = xs).
  { intros w Hw xs F. induction F as [|x xs Fx F IH]; cbn [map map2]; [reflexivity|]. f_equal; [|exact IH]. rewrite mkw4_sval by (now apply frexp_exp_range). now apply ldexp_frexp. }
  split; intros xs L F; eexists _, _.
  - split; [now apply y_frexp_ps_ok|]. rewrite y_ldexp_ps_ok by (now rewrite map_length). now rewrite (K _ fp4).
  - split; [now apply y_frexp_pd_ok|]. rewrite y_ldexp_pd_ok by (now rewrite map_length). now rewrite (K _ fp8).
Qed.

Lemma C37_avx_exponent_main :
  let ok (w : nat) (x y : word w) := is_Normal x = true -> sign_bit x = false -> exists k, is_log2 x k /\ has_value y k in
  (forall xs : list (word 4), length xs = 8%nat -> Forall2 (ok 4%nat) xs (ylanes 4 (y_exponent 4 (ypack xs)))) /\
  (forall xs : list (word 8), length xs = 4%nat -> Forall2 (ok 8%nat) xs (ylanes 8 (y_exponent 8 (ypack xs)))).
Proof.
  intros ok. split.
  - intros xs L. rewrite y_exponent4, (ylanes_map fp4) by exact L. apply forall2_map. intros x. exact (exponent_lane4 x).
  - intros xs L. pose proof L as L'. do 4 (destruct xs as [|? xs]; [discriminate L|]). destruct xs; [|discriminate L]. rewrite y_exponent8, (ylanes_map fp8) by exact L'. apply forall2_map. intros x. exact (exponent_lane8 x).
Qed.

Lemma C40_avx_random_float_main :
  forall avx2 s n, length s = 16%nat ->
    Forall in_unit_interval (ylanes 4 (fst (yrandom_ps avx2 (Nat.iter n (fun s => snd (yrandom_ps avx2 s)) s)))).
Proof.
  intros avx2 s n L. apply yrandom_ps_ok. induction n as [|n IH]; [exact L|]. change (length (snd (yrandom_ps avx2 (Nat.iter n (fun s => snd (yrandom_ps avx2 s)) s))) = 16%nat).
  rewrite (proj2 (yrandom_ps_ok avx2 _ IH)). now apply rnext_length.
Qed.

Lemma C40_avx_random_double_main :
  forall s n, length s = 16%nat ->
    Forall in_unit_interval (ylanes 8 (fst (yrandom_pd (Nat.iter n (fun s => snd (yrandom_pd s)) s)))).
Proof.
  intros s n L. apply yrandom_pd_ok. induction n as [|n IH]; cbn [Nat.iter nat_rect]; [exact L|]. now apply yrandom_pd_ok.
Qed.

Lemma C40_avx_random_state_main :
  forall s t, length s = 16%nat -> length t = 16%nat ->
    let next s := snd (yrandom_ps true s) in
    length (next s) = 16%nat /\ next s = snd (yrandom_ps false s) /\ (next s = next t -> s = t) /\
    ylanes 4 (fst (yrandom_int s)) = firstn 8 s /\ snd (yrandom_int s) = next s.
Proof.
  intros s t Ls Lt next.
  assert (N : forall a s, length s = 16%nat -> snd (yrandom_ps a s) = rnext s) by (intros a u Lu; apply yrandom_ps_ok; exact Lu).
  unfold next. rewrite !N by assumption. split; [now apply rnext_length|]. split; [reflexivity|]. split.
  - unfold rnext. intros E.
    do 16 (destruct s as [|? s]; [discriminate Ls|]). destruct s; [|discriminate Ls].
    do 16 (destruct t as [|? t]; [discriminate Lt|]). destruct t; [|discriminate Lt]. cbn [firstn skipn map2 map app length] in E.
    assert (CI : forall (a b : word 4) l m, a :: l = b :: m -> a = b /\ l = m) by (intros a b l m Q; split; [exact (f_equal (fun l => hd a l) Q)|exact (f_equal (@tl _) Q)]).
    do 16 (apply CI in E; let H := fresh "E" in destruct E as [H E]). apply lcg_inj in E8, E9, E10, E11, E12, E13, E14, E15. subst.
    apply wxor_inj, lcg_inj in E0, E1, E2, E3, E4, E5, E6, E7. subst. reflexivity.
  - unfold yrandom_int. rewrite yrandom_step_ok by exact Ls. cbn [fst snd]. split; [|reflexivity]. apply ylanes_ypack; [apply fp_w, fp4|]. rewrite firstn_length, Ls. reflexivity.
Qed.

Lemma C47_avx_fma_float_partial_main :
  forall xs ys zs : list (word 4), length xs = 8%nat -> length ys = 8%nat -> length zs = 8%nat ->
    Forall2 (fun abc r => let '(a, (b, c)) := abc in is_Finite a = true -> is_Finite b = true -> is_Finite c = true ->
               (exists t : word 8, nearest t (fma_exact a b c * 2 ^ 776) 1 /\ rounded r (sign_bit t) (Z.abs (fvalue t)) (2 ^ 925)) /\
               ((exists t : word 8, is_Finite t = true /\ fvalue t = fma_exact a b c * 2 ^ 776) ->
                exists neg, (fma_exact a b c <> 0 -> neg = (fma_exact a b c <? 0)) /\ rounded r neg (Z.abs (fma_exact a b c)) (fone 4)))
            (combine xs (combine ys zs)) (ylanes 4 (y_fma_ps (ypack xs) (ypack ys) (ypack zs))).
Proof.
  intros xs ys zs Lx Ly Lz. destruct (split_halves xs (fp_w 4 fp4) Lx) as (xl & xh & -> & Lxl & Lxh & ->). destruct (split_halves ys (fp_w 4 fp4) Ly) as (yl & yh & -> & Lyl & Lyh & ->).
  destruct (split_halves zs (fp_w 4 fp4) Lz) as (zl & zh & -> & Lzl & Lzh & ->). rewrite y_fma_ps_halves by assumption. rewrite ylanes_halves by (right; left; reflexivity). cbn [lo128 hi128].
  assert (C : forall A B (a b : list A) (c d : list B), length a = length c -> combine (a ++ b) (c ++ d) = combine a c ++ combine b d).
  { intros A B. induction a as [|x a IH]; intros b [|y c] d H; try discriminate H; cbn [app combine]; [reflexivity|]. f_equal. apply IH. now injection H. }
  rewrite (C _ _ yl) by congruence. rewrite C by (rewrite combine_length, Lxl, Lyl, Lzl; reflexivity).
  apply Forall2_app; now apply C47_fma_float_partial_main.
Qed.

Lemma C47_avx_fma_float_refuted_main :
  exists a b c : word 4, has_value a 257 /\ has_value b 65281 /\ is_Finite c = true /\ fvalue c * 2 ^ 60 = fone 4 /\
    Forall (fun r => is_Finite r = true /\ ~ nearest r (fma_exact a b c) (fone 4)) (ylanes 4 (y_fma_ps (ypack (repeat a 8)) (ypack (repeat b 8)) (ypack (repeat c 8)))).
Proof.
  destruct C47_fma_float_refuted_main as (a & b & c & A & B & C & D & F). exists a, b, c. repeat (split; [assumption|]).
  change (repeat ?x 8) with ([x; x; x; x] ++ [x; x; x; x]). rewrite !ypack_app by reflexivity. rewrite y_fma_ps_halves by reflexivity. rewrite ylanes_halves by (right; left; reflexivity).
  apply Forall_app. split; exact F.
Qed.

Lemma C47_avx_fma_double_partial_main :
  forall a b c : list (word 8), length a = 4%nat -> length b = 4%nat -> length c = 4%nat ->
    Forall2 (fun abc r => let '(a, (b, c)) := abc in is_Finite a = true -> is_Finite b = true -> is_Finite c = true ->
               fraction a mod 2 ^ 27 = 0 -> fraction b mod 2 ^ 27 = 0 ->
               (exists p : word 8, is_Finite p = true /\ fvalue p * fone 8 = fvalue a * fvalue b) ->
               Z.abs (fma_exact a b c) < overflow_at 8 * fone 8 -> nearest r (fma_exact a b c) (fone 8))
            (combine a (combine b c)) (ylanes 8 (y_fma_pd (ypack a) (ypack b) (ypack c))).
Proof.
  intros a b c La Lb Lc. four a. four b. four c. rewrite y_fma_pd_halves. rewrite ylanes_ypack by (first [apply fp_w, fp8 | reflexivity]). cbn [combine].
  repeat (constructor; [cbv iota beta; intros; now apply fma8_ok|]). constructor.
Qed.

Lemma C47_avx_fma_double_refuted_main :
  exists a c : word 8, is_Finite a = true /\ is_Finite c = true /\ fma_exact a a c * 2 ^ 104 = fone 8 * fone 8 /\
    map fvalue (ylanes 8 (y_fma_pd (ypack [a; a; a; a]) (ypack [a; a; a; a]) (ypack [c; c; c; c]))) = [0; 0; 0; 0].
Proof.
  exists (mkw 8 0x3ff0000000000001), (mkw 8 0xbff0000000000002). split; [reflexivity|]. split; [reflexivity|]. split; [vm_compute; reflexivity|].
  rewrite y_fma_pd_halves, ylanes_ypack by (first [apply fp_w, fp8 | reflexivity]). vm_compute. reflexivity.
Qed.

Lemma C47_avx_fma_int_main :
  forall e (xs ys zs : list (elt e)), is_integer e = true -> length xs = (32 / esize e)%nat -> length ys = (32 / esize e)%nat -> length zs = (32 / esize e)%nat ->
    map uval (ylanes (esize e) (y_fma_int e (ypack xs) (ypack ys) (ypack zs))) =
    map3 (fun x y z => (uval x * uval y + uval z) mod 2 ^ (8 * Z.of_nat (esize e))) xs ys zs.
Proof.
  intros e xs ys zs He Lx Ly Lz. rewrite y_fma_int_ok by auto.
  assert (L3 : forall (f : elt e -> elt e -> elt e -> elt e) (a b c : list (elt e)) n, length a = n -> length b = n -> length c = n -> length (map3 f a b c) = n).
  { intros f. induction a as [|x a IH]; intros [|y b] [|z c] n A B C; cbn in *; subst; try discriminate; auto. }
  rewrite ylanes_ypack; [|apply esize_ok|exact (L3 _ _ _ _ _ Lx Ly Lz)]. clear L3 Lx Ly Lz. revert ys zs. induction xs as [|x xs IH]; intros [|y ys] [|z zs]; cbn [map map3]; try reflexivity. f_equal; [|apply IH].
  unfold wadd, wmul. rewrite !uval_mkw, Zplus_mod_idemp_l. reflexivity.
Qed.
