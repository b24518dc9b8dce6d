(** floating-point functions of the SSE vectors (proofs). *)
From Coq Require Import ZArith List Bool Lia.
From Verif.Spec Require Import Seq FloatSpec RoundSpec CastSpec MathSpec.
From Verif.Model Require Import Word Fp FpArith SseReg SseMove SortNet SseInt SseBuild SseArith SseMask SimdArray Mem SseConvert SseMath.
Import ListNotations.
Local Open Scope Z_scope.
From Verif.Proof Require Import WordP SseMoveP SseIntP SseEmulP SseArithP SseMaskP FpP FpArithP FpIntP ConvertP ConvertRegP SimdArrayOpsP MathP.

Lemma C38_classification_main :
  forall sse41 w (xs : list (word w)), w = 4%nat \/ w = 8%nat -> length xs = (16 / w)%nat ->
    v_isnan w (pack xs) = mask_reg w (map is_NaN xs) /\
    v_isinf sse41 w (pack xs) = mask_reg w (map is_Inf xs) /\
    v_isfinite w (pack xs) = mask_reg w (map is_Finite xs) /\
    v_isnegative w (pack xs) = mask_reg w (map sign_bit xs).
Proof.
  intros sse41 w xs Hw L. split; [|split; [|split]]; [apply isnan_pack|apply isinf_pack|apply isfinite_pack|apply isnegative_pack]; auto.
Qed.

Lemma C38_abs_copysign_main :
  forall w (xs ys : list (word w)), w = 4%nat \/ w = 8%nat -> length xs = (16 / w)%nat -> length ys = (16 / w)%nat ->
    Forall2 (fun x y => same_magnitude x y /\ sign_bit y = false) xs (lanes w (v_fabs w (pack xs))) /\
    Forall2 (fun xy z => same_magnitude (fst xy) z /\ sign_bit z = sign_bit (snd xy)) (combine xs ys)
            (lanes w (v_copysign w (pack xs) (pack ys))).
Proof.
  intros w xs ys Hw Lx Ly. split.
  - rewrite fabs_pack, lanes_fin by auto. apply forall2_map. intros x. now apply with_sign_same.
  - rewrite copysign_pack, lanes_pack by (auto; rewrite map2_length, Lx, Ly; apply Nat.min_id). clear Lx Ly. revert ys.
    induction xs as [|x xs IH]; intros [|y ys]; cbn [combine map2]; constructor; auto. cbn [fst snd]. rewrite (sign_bit_neg Hw y). now apply with_sign_same.
Qed.

Lemma C38_scalar_isnegative_main :
  forall w (x : word w), w = 4%nat \/ w = 8%nat -> s_isnegative w x = sign_bit x.
Proof.
  intros w x Hw. unfold s_isnegative. replace (2 ^ (bits w - 1)) with ((2 ^ 1 - 1) * 2 ^ (bits w - 1)) by lia. rewrite land_field by (destruct Hw as [->| ->]; cbn; lia).
  rewrite (sign_bit_neg Hw x). pose proof (u_sign Hw x) as U. pose proof (mag_range Hw x) as M. pose proof (sign_pos Hw) as SP.
  rewrite <- (bits_sign (w := w)) in U, M, SP. rewrite U. change (2 ^ 1) with 2. destruct (negative x).
  - assert (D : (2 ^ (bits w - 1) + magnitude x) / 2 ^ (bits w - 1) = 1) by (symmetry; apply (Z.div_unique _ _ 1 (magnitude x)); lia). rewrite D. change (1 mod 2) with 1. rewrite Z.mul_1_l. destruct (Z.eqb_spec (2 ^ (bits w - 1)) 0); [lia|reflexivity].
  - rewrite Z.add_0_l, Z.div_small by lia. reflexivity.
Qed.

Lemma C36_sse41_main :
  forall w (xs : list (word w)), w = 4%nat \/ w = 8%nat -> length xs = (16 / w)%nat ->
    let ok R x y := rounded_value R x y /\ (is_Finite x = true -> sign_bit y = sign_bit x) in
    Forall2 (ok is_trunc) xs (lanes w (v_trunc true w (pack xs))) /\
    Forall2 (ok is_floor) xs (lanes w (v_floor true w (pack xs))) /\
    Forall2 (ok is_ceil) xs (lanes w (v_ceil true w (pack xs))) /\
    Forall2 (ok is_round) xs (lanes w (v_round true w (pack xs))).
Proof.
  intros w xs Hw L ok. unfold v_trunc, v_floor, v_ceil, v_round, mm_round. rewrite !lift1_pack, !lanes_fin by auto.
  split; [|split; [|split]]; apply forall2_map; intros x; [apply (round_to_ok Hw ToZero)|apply (round_to_ok Hw Down)|apply (round_to_ok Hw Up)|apply (round_to_ok Hw ToNearest)].
Qed.

Lemma C36_sse2_float_main :
  forall xs : list (word 4), length xs = 4%nat ->
    Forall2 (rounded_value is_trunc) xs (lanes 4 (v_trunc false 4 (pack xs))) /\
    Forall2 (rounded_value is_floor) xs (lanes 4 (v_floor false 4 (pack xs))) /\
    Forall2 (rounded_value is_ceil) xs (lanes 4 (v_ceil false 4 (pack xs))).
Proof.
  intros xs L. rewrite trunc_pack, floor_pack, ceil_pack, !lanes_fin by (auto using fp4).
  split; [|split]; apply forall2_map; intros x; [apply (trunc_rounded fp4)|apply (floor_lane_ok fp4)|apply (ceil_lane_ok fp4)]; apply trunc4_ok.
Qed.

Lemma C36_sse2_double_partial_main :
  forall xs : list (word 8), length xs = 2%nat ->
    let small x := is_Finite x = true -> Z.abs (fvalue x) <= 2 ^ 52 * fone 8 in
    Forall2 (fun x y => small x -> rounded_value is_trunc x y /\ (is_Finite x = true -> sign_bit y = sign_bit x)) xs (lanes 8 (v_trunc false 8 (pack xs))) /\
    Forall2 (fun x y => small x -> rounded_value is_floor x y) xs (lanes 8 (v_floor false 8 (pack xs))) /\
    Forall2 (fun x y => small x -> rounded_value is_ceil x y) xs (lanes 8 (v_ceil false 8 (pack xs))).
Proof.
  intros xs L small. rewrite trunc_pack, floor_pack, ceil_pack, !lanes_fin by (auto using fp8).
  split; [|split]; apply forall2_map; intros x SM; unfold small in SM; rewrite (fone_units fp8) in SM; [split; [apply (trunc_rounded fp8)|]|apply (floor_lane_ok fp8)|apply (ceil_lane_ok fp8)]; try now apply trunc8_ok.
  intros F. destruct (trunc8_finite x F (SM F)) as (z & _ & _ & _ & _ & N). rewrite !(sign_bit_neg fp8). exact N.
Qed.

Lemma C36_sse2_double_refuted_main :
  exists x y : word 8, has_value x (2 ^ 52 + 1) /\ has_value y (- (2 ^ 52 + 1)) /\
    map fvalue (lanes 8 (v_trunc false 8 (pack [x; y]))) = [2 ^ 52 * fone 8; - 2 ^ 52 * fone 8] /\
    map fvalue (lanes 8 (v_floor false 8 (pack [x; y]))) = [2 ^ 52 * fone 8; - (2 ^ 52 + 1) * fone 8] /\
    map fvalue (lanes 8 (v_ceil false 8 (pack [x; y]))) = [(2 ^ 52 + 1) * fone 8; - 2 ^ 52 * fone 8].
Proof.
  exists (mkw 8 0x4330000000000001), (mkw 8 0xc330000000000001). split; [split; vm_compute; reflexivity|]. split; [split; vm_compute; reflexivity|].
  split; [|split]; vm_compute; reflexivity.
Qed.

Lemma C36_sse2_zero_refuted_main :
  exists x : word 4, is_Finite x = true /\ sign_bit x = true /\
    map sign_bit (lanes 4 (v_trunc false 4 (pack [x; x; x; x]))) = [false; false; false; false] /\
    map sign_bit (lanes 4 (v_ceil false 4 (pack [x; x; x; x]))) = [false; false; false; false].
Proof.
  exists (mkw 4 0xbe800000). repeat split; vm_compute; reflexivity.
Qed.

Lemma C36_sse2_round_partial_main :
  forall w (xs : list (word w)), w = 4%nat \/ w = 8%nat -> length xs = (16 / w)%nat ->
    Forall2 (fun x y => is_Finite x = true -> - 2 ^ 31 * fone w <= fvalue x <= (2 ^ 31 - 1) * fone w ->
                        exists z, is_round (fvalue x) (fone w) z /\ has_value y z)
            xs (lanes w (v_round false w (pack xs))).
Proof.
  intros w xs Hw L. rewrite round_pack, lanes_fin by auto. apply forall2_map. intros x. now apply round_lane_ok.
Qed.

Lemma C36_sse2_round_refuted_main :
  exists x : word 4, has_value x (3 * 10 ^ 9) /\
    forall y, In y (lanes 4 (v_round false 4 (pack [x; x; x; x]))) -> has_value y (- 2 ^ 31).
Proof.
  exists (mkw 4 0x4f32d05e). split; [split; vm_compute; reflexivity|].
  assert (E : lanes 4 (v_round false 4 (pack [mkw 4 0x4f32d05e; mkw 4 0x4f32d05e; mkw 4 0x4f32d05e; mkw 4 0x4f32d05e])) = repeat (mkw 4 0xcf000000) 4).
  { rewrite round_pack, lanes_fin by (auto using fp4). cbn [map repeat]. repeat f_equal; apply word_ext; vm_compute; reflexivity. }
  rewrite E. intros y [<-|[<-|[<-|[<-|[]]]]]; split; vm_compute; reflexivity.
Qed.

Lemma C37_frexp_main :
  forall sse41,
    (forall xs, length xs = 4%nat -> let (m, e) := v_frexp_ps sse41 (pack xs) in
       length (lanes 4 m) = 4%nat /\ length (lanes 4 e) = 4%nat /\
       Forall2 (fun x me => frexp_ok x (fst me) (sval (snd me))) xs (combine (lanes 4 m) (lanes 4 e))) /\
    (forall x0 x1, let '(m, (e0, e1)) := v_frexp_pd sse41 (pack [x0; x1]) in
       exists m0 m1, lanes 8 m = [m0; m1] /\ frexp_ok x0 m0 (sval e0) /\ frexp_ok x1 m1 (sval e1)).
Proof.
  intros sse41. split.
  - intros xs L. pose proof (frexp_ps_fst sse41 xs L) as E1. pose proof (frexp_ps_snd sse41 xs L) as E2. destruct (v_frexp_ps sse41 (pack xs)) as [m e]. cbn [fst snd] in E1, E2. subst m e.
    rewrite lanes_fin by auto. rewrite lanes_pack by (now rewrite map_length). split; [now rewrite map_length|]. split; [now rewrite map_length|]. clear L.
    induction xs as [|x xs IH]; cbn [map combine]; constructor; auto. cbn [fst snd]. rewrite mkw4_sval by (apply (frexp_exp_range fp4)). apply (frexp_lane_ok fp4).
  - intros x0 x1. pose proof (frexp_pd_fst sse41 [x0; x1] eq_refl) as E1. pose proof (frexp_pd_snd sse41 x0 x1) as E2. destruct (v_frexp_pd sse41 (pack [x0; x1])) as [m [e0 e1]]. cbn [fst snd] in E1, E2.
    injection E2 as -> ->. subst m. rewrite lanes_fin by auto. eexists _, _. split; [reflexivity|]. rewrite !mkw4_sval by (apply (frexp_exp_range fp8)). split; apply (frexp_lane_ok fp8).
Qed.

Lemma C37_ldexp_main :
  let ok (w : nat) x e y := (is_Normal x = true -> ldexp_in_range x e -> is_Finite y = true /\ scaled_by x e y) /\ (is_Finite x = true -> @fvalue w x = 0 -> y = x) in
  (forall xs es : list (word 4), length xs = 4%nat -> length es = 4%nat ->
     Forall2 (fun xe y => ok 4%nat (fst xe) (sval (snd xe)) y) (combine xs es) (lanes 4 (v_ldexp_ps (pack xs) (pack es)))) /\
  (forall x0 x1 e0 e1, exists y0 y1, lanes 8 (v_ldexp_pd (pack [x0; x1]) e0 e1) = [y0; y1] /\ ok 8%nat x0 (sval e0) y0 /\ ok 8%nat x1 (sval e1) y1).
Proof.
  intros ok.
  assert (K : forall w (Hw : fp_width w) (x : word w) e, ok w x e (ldexp_word x e)).
  { intros w Hw x e. split; [now apply ldexp_word_ok|]. intros F Z0. unfold ldexp_word. rewrite F, Z0. reflexivity. }
  split.
  - intros xs es L Le. rewrite ldexp_ps_pack, lanes_pack by (auto; rewrite map2_length, L, Le; reflexivity). clear L Le. revert es.
    induction xs as [|x xs IH]; intros [|e es]; cbn [combine map2]; constructor; auto. cbn [fst snd]. apply (K 4%nat fp4).
  - intros. rewrite ldexp_pd_pack, lanes_pack by reflexivity. eexists _, _. split; [reflexivity|]. split; apply (K 8%nat fp8).
Qed.

Lemma C37_round_trip_main :
  forall sse41,
    (forall xs : list (word 4), length xs = 4%nat -> Forall (fun x => is_Finite x = true) xs ->
       let (m, e) := v_frexp_ps sse41 (pack xs) in v_ldexp_ps m e = pack xs) /\
    (forall x0 x1 : word 8, is_Finite x0 = true -> is_Finite x1 = true ->
       let '(m, (e0, e1)) := v_frexp_pd sse41 (pack [x0; x1]) in v_ldexp_pd m e0 e1 = pack [x0; x1]).
Proof.
  intros sse41. split.
  - intros xs L F. pose proof (frexp_ps_fst sse41 xs L) as E1. pose proof (frexp_ps_snd sse41 xs L) as E2. destruct (v_frexp_ps sse41 (pack xs)) as [m e]. cbn [fst snd] in E1, E2. subst m e.
    rewrite ldexp_ps_pack by (now rewrite map_length). f_equal. clear L. induction F as [|x xs Fx F IH]; cbn [map map2]; [reflexivity|]. f_equal; [|exact IH].
    rewrite mkw4_sval by (apply (frexp_exp_range fp4)). now apply (ldexp_frexp fp4).
  - intros x0 x1 F0 F1. pose proof (frexp_pd_fst sse41 [x0; x1] eq_refl) as E1. pose proof (frexp_pd_snd sse41 x0 x1) as E2. destruct (v_frexp_pd sse41 (pack [x0; x1])) as [m [e0 e1]]. cbn [fst snd] in E1, E2.
    injection E2 as -> ->. subst m. cbn [map]. rewrite ldexp_pd_pack. rewrite !mkw4_sval by (apply (frexp_exp_range fp8)). now rewrite !(ldexp_frexp fp8).
Qed.

Lemma C37_exponent_main :
  let ok (w : nat) (x y : word w) := is_Normal x = true -> sign_bit x = false -> exists k, is_log2 x k /\ has_value y k in
  (forall xs : list (word 4), length xs = 4%nat -> Forall2 (ok 4%nat) xs (lanes 4 (v_exponent 4 (pack xs)))) /\
  (forall xs : list (word 8), length xs = 2%nat -> Forall2 (ok 8%nat) xs (lanes 8 (v_exponent 8 (pack xs)))) /\
  (forall w (x : word w), w = 4%nat \/ w = 8%nat -> ok w x (s_exponent w x)).
Proof.
  intros ok. split; [|split].
  - intros xs L. rewrite exponent_ps_pack, lanes_fin by auto. apply forall2_map. intros x. exact (exponent_lane4 x).
  - intros xs L. rewrite exponent_pd_pack, lanes_fin by auto. apply forall2_map. intros x. exact (exponent_lane8 x).
  - intros w x Hw N S.
    assert (SV : sval x = uval x).
    { unfold sval, to_signed. rewrite (sign_bit_neg Hw) in S. pose proof (u_sign Hw x) as U. rewrite S in U. pose proof (mag_range Hw x) as M. assert (MH : modulus w / 2 = sign_weight w) by (destruct Hw as [->| ->]; reflexivity). rewrite MH.
      destruct (Z.ltb_spec (uval x) (sign_weight w)); [reflexivity|lia]. }
    destruct (exponent_ok Hw x N S) as (E & L & V). destruct Hw as [->| ->]; unfold s_exponent; rewrite SV; eexists; (split; [exact L|]).
    + change (mant_bits 4) with 23 in E. rewrite E. exact V.
    + change (mant_bits 8) with 52 in E. rewrite E. exact V.
Qed.

Lemma random_step_pack sse41 s : length s = 16%nat ->
  random_step sse41 s = (pack (firstn 4 s), pack (firstn 4 (skipn 4 s)),
    map2 (fun x y => wxor (lcg x) (mkw 4 (uval y / 2 ^ 16))) (firstn 4 s) (firstn 4 (skipn 4 s)) ++ map lcg (firstn 4 (skipn 4 s)) ++ skipn 8 s).
Proof.
  intros L. unfold random_step. set (a := firstn 4 s). set (b := firstn 4 (skipn 4 s)).
  assert (La : length a = 4%nat) by (unfold a; rewrite firstn_length; lia). assert (Lb : length b = 4%nat) by (unfold b; rewrite firstn_length, skipn_length; lia).
  assert (K : forall xs : list (word 4), length xs = 4%nat -> v_add UInt (v_mul sse41 UInt (pack xs) (set1 4 0xdeece66d)) (set1 4 11) = pack (map lcg xs)).
  { intros xs Lx. four xs. rewrite !SseArithP.set1_pack. change (16 / 4)%nat with 4%nat. cbn [repeat]. rewrite (v_mul_pack sse41 UInt) by reflexivity. cbn [map2]. rewrite (v_add_pack UInt) by reflexivity. reflexivity. }
  rewrite !K by assumption. unfold srli_epi. rewrite lift1_pack by exact Lb. rewrite xor_pack by (rewrite !map_length; congruence). rewrite !lanes_pack by (rewrite ?map2_length, ?map_length, ?La, ?Lb; reflexivity).
  f_equal. f_equal. rewrite map2_map. reflexivity.
Qed.
Lemma random_len sse41 s : length s = 16%nat -> length (snd (random_step sse41 s)) = 16%nat.
Proof. intros L. rewrite random_step_pack by exact L. cbn [snd]. rewrite !app_length, map2_length, map_length, skipn_length, !firstn_length, skipn_length, L. reflexivity. Qed.
Lemma random_ps_lanes sse41 s : length s = 16%nat -> Forall in_unit_interval (lanes 4 (fst (random_ps sse41 s))).
Proof.
  intros L. unfold random_ps. rewrite random_step_pack by exact L. cbn [fst]. assert (La : length (firstn 4 s) = 4%nat) by (rewrite firstn_length; lia). set (xs := firstn 4 s) in *.
  unfold srli_epi. rewrite lift1_pack by exact La. unfold v_one. rewrite or_set1 by (now rewrite map_length). rewrite map_map, SseArithP.set1_pack. unfold v_fsub. rewrite lift2_pack by (rewrite ?map_length, ?repeat_length; auto).
  rewrite map2_repeat_r by (now rewrite map_length). rewrite map_map, lanes_fin by exact La. apply Forall_map. apply Forall_forall. intros x _. apply random_lane4.
Qed.
Lemma random_pd_ok s : length s = 16%nat -> Forall in_unit_interval (lanes 8 (fst (random_pd s))) /\ length (snd (random_pd s)) = 16%nat.
Proof.
  intros L. assert (La : length (firstn 4 (skipn 8 s)) = 4%nat) by (rewrite firstn_length, skipn_length; lia).
  unfold random_pd. cbv zeta. cbn [fst snd]. remember (firstn 4 (skipn 8 s)) as xs eqn:E. clear E. four xs. rewrite SseArithP.pack_join.
  unfold srli_epi. rewrite !lift1_pack by reflexivity. cbn [map]. unfold v_one. rewrite or_set1 by reflexivity. cbn [map]. rewrite SseArithP.set1_pack. change (16 / 8)%nat with 2%nat. cbn [repeat]. unfold v_fsub. rewrite lift2_pack by reflexivity. cbn [map2].
  rewrite lanes_pack by reflexivity. split.
  - constructor; [apply random_lane8|constructor; [apply random_lane8|constructor]].
  - rewrite !app_length, lanes_length, firstn_length, skipn_length, L. reflexivity.
Qed.

Lemma C40_random_float_main :
  forall sse41 s n, length s = 16%nat ->
    Forall in_unit_interval (lanes 4 (fst (random_ps sse41 (Nat.iter n (fun s => snd (random_ps sse41 s)) s)))).
Proof.
  intros sse41 s n L. apply random_ps_lanes. induction n as [|n IH]; cbn [Nat.iter nat_rect]; [exact L|]. unfold random_ps at 1.
  pose proof (random_len sse41 _ IH) as H. destruct (random_step sse41 _) as [[a b] s']. exact H.
Qed.

Lemma C40_random_double_main :
  forall s n, length s = 16%nat ->
    Forall in_unit_interval (lanes 8 (fst (random_pd (Nat.iter n (fun s => snd (random_pd s)) s)))).
Proof.
  intros s n L. apply random_pd_ok. induction n as [|n IH]; cbn [Nat.iter nat_rect]; [exact L|]. now apply random_pd_ok.
Qed.

Lemma C40_random_state_main :
  forall sse41 s t, length s = 16%nat -> length t = 16%nat ->
    let next s := snd (random_ps sse41 s) in
    length (next s) = 16%nat /\ skipn 8 (next s) = skipn 8 s /\ (next s = next t -> s = t).
Proof.
  intros sse41 s t Ls Lt next.
  assert (N : forall s, length s = 16%nat -> next s = map2 (fun x y => wxor (lcg x) (mkw 4 (uval y / 2 ^ 16))) (firstn 4 s) (firstn 4 (skipn 4 s)) ++ map lcg (firstn 4 (skipn 4 s)) ++ skipn 8 s).
  { intros u Lu. unfold next, random_ps. rewrite random_step_pack by exact Lu. reflexivity. }
  rewrite !N by assumption.
  assert (X : forall a b c : word 4, wxor a c = wxor b c -> a = b).
  { intros a b c E. apply (f_equal (fun z => wxor z c)) in E. apply word_ext. apply (f_equal uval) in E. unfold wxor in E. rewrite !uval_mkw in E.
    assert (LX : forall p q : word 4, 0 <= Z.lxor (uval p) (uval q) < modulus 4).
    { intros p q. pose proof (uval_range p). pose proof (uval_range q). change (modulus 4) with (2 ^ 32) in *. split; [apply Z.lxor_nonneg; lia|].
      destruct (Z.eq_dec (Z.lxor (uval p) (uval q)) 0) as [->|NZ]; [lia|]. apply Z.log2_lt_pow2; [assert (0 <= Z.lxor (uval p) (uval q)) by (apply Z.lxor_nonneg; lia); lia|].
      apply Z.le_lt_trans with (Z.max (Z.log2 (uval p)) (Z.log2 (uval q))); [apply Z.log2_lxor; lia|].
      assert (forall x, 0 <= x < 2 ^ 32 -> Z.log2 x < 32) as LG. { intros x Hx. destruct (Z.eq_dec x 0) as [->|]; [cbn; lia|]. apply Z.log2_lt_pow2; lia. }
      apply Z.max_lub_lt; apply LG; lia. }
    rewrite !(Z.mod_small (Z.lxor (uval _) (uval c))) in E by apply LX. rewrite !Z.lxor_assoc, Z.lxor_nilpotent, !Z.lxor_0_r in E. rewrite !Z.mod_small in E by apply uval_range. exact E. }
  do 16 (destruct s as [|? s]; [discriminate Ls|]). destruct s; [|discriminate Ls].
  do 16 (destruct t as [|? t]; [discriminate Lt|]). destruct t; [|discriminate Lt]. cbn [firstn skipn map2 map app length]. split; [reflexivity|]. split; [reflexivity|].
  intros E.
  assert (CI : forall (a b : word 4) l m, a :: l = b :: m -> a = b /\ l = m) by (intros a b l m Q; split; [exact (f_equal (fun l => hd a l) Q)|exact (f_equal (@tl _) Q)]).
  do 16 (apply CI in E; let H := fresh "E" in destruct E as [H E]). apply lcg_inj in E4, E5, E6, E7. subst. apply X, lcg_inj in E0, E1, E2, E3. subst. reflexivity.
Qed.

Lemma C40_random_scalar_main :
  forall s, in_unit_interval (fst (s_random_float s)) /\ in_unit_interval (fst (s_random_double s)).
Proof.
  intros s. split.
  - unfold s_random_float, s_random_step. cbv zeta. cbn [fst]. set (x := nth 0 s (w0 4)). pose proof (uval_range x) as R. change (modulus 4) with (2 ^ 32) in R.
    change 0x0fffffff with (2 ^ 28 - 1). rewrite land_low by lia. set (u := uval x mod 2 ^ 28). assert (U : 0 <= u < 2 ^ 28) by (apply Z.mod_pos_bound; lia).
    assert (E : mkw 4 (Z.lor u 0x3f800000) = with_fields (w := 4) false 127 (u mod 2 ^ 23)).
    { pose proof (or_one fp4 (u / 2 ^ 23) (u mod 2 ^ 23)) as O. change (mant_bits 4) with 23 in O. change (2 ^ (exp_bits 4 - 1) - 1) with 127 in O.
      rewrite <- O; [|split; [apply Z.div_pos; lia|]; assert (u / 2 ^ 23 < 32) by (apply Z.div_lt_upper_bound; lia); lia|apply Z.mod_pos_bound; lia].
      unfold wor. rewrite uval_mkw. rewrite (Z.mul_comm (u / 2 ^ 23)), <- Z.div_mod by lia. rewrite Z.mod_small by (change (modulus 4) with (2 ^ 32); lia). reflexivity. }
    rewrite E. apply (unit_sub fp4). apply Z.mod_pos_bound. reflexivity.
  - unfold s_random_double. cbv zeta. cbn [fst]. set (x := uval (nth 0 _ (w0 8))). change 0x000fffffffffffff with (2 ^ 52 - 1). rewrite land_low by lia.
    set (u := ((x * 0x5deece66d + 11) mod 2 ^ 64) mod 2 ^ 52). assert (U : 0 <= u < 2 ^ 52) by (apply Z.mod_pos_bound; lia).
    assert (E : mkw 8 (Z.lor (uval (mkw 8 u)) 0x3ff0000000000000) = with_fields (w := 8) false 1023 u).
    { pose proof (or_one fp8 0 u) as O. change (mant_bits 8) with 52 in O. change (2 ^ (exp_bits 8 - 1) - 1) with 1023 in O. rewrite <- O by lia. rewrite Z.mul_0_l, Z.add_0_l. reflexivity. }
    rewrite E. apply (unit_sub fp8). exact U.
Qed.

Lemma C47_fma_float_partial_main :
  forall xs ys zs : list (word 4), length xs = 4%nat -> length ys = 4%nat -> length zs = 4%nat ->
    Forall2 (fun abc r => let '(a, (b, c)) := abc in is_Finite a = true -> is_Finite b = true -> is_Finite c = true ->
               (exists t : word 8, nearest t (fma_exact a b c * 2 ^ 776) 1 /\ rounded r (sign_bit t) (Z.abs (fvalue t)) (2 ^ 925)) /\
               ((exists t : word 8, is_Finite t = true /\ fvalue t = fma_exact a b c * 2 ^ 776) ->
                exists neg, (fma_exact a b c <> 0 -> neg = (fma_exact a b c <? 0)) /\ rounded r neg (Z.abs (fma_exact a b c)) (fone 4)))
            (combine xs (combine ys zs)) (lanes 4 (v_fma_ps (pack xs) (pack ys) (pack zs))).
Proof.
  intros xs ys zs Lx Ly Lz. rewrite fma_ps_pack by auto. rewrite lanes_pack by (four xs; four ys; four zs; reflexivity). clear Lx Ly Lz. revert ys zs.
  induction xs as [|a xs IH]; intros [|b ys] [|c zs]; cbn [combine map3]; constructor; auto. intros Fa Fb Fc.
  destruct (fma4_ok a b c Fa Fb Fc) as (t & N & R). split; [exists t; split; [exact N|]; now rewrite <- (fabs_abs fp8)|].
  intros (t' & F' & V'). destruct N as (Ft & N). destruct (N t' F') as (N1 & _). rewrite V', !Z.mul_1_r, Z.sub_diag in N1. assert (VT : fvalue t = fma_exact a b c * 2 ^ 776) by lia.
  pose proof (pow_pos2 776 ltac:(lia)) as P. exists (sign_bit t). split.
  - intros NZ. rewrite (sign_bit_neg fp8). pose proof (fvalue_abs fp8 t) as A. pose proof (fabs_nonneg fp8 t). destruct (negative t), (Z.ltb_spec (fma_exact a b c) 0); auto; nia.
  - assert (SC : forall n, rounded (fma4_lane a b c) (sign_bit t) (n * 2 ^ 776) (2 ^ 149 * 2 ^ 776) -> rounded (fma4_lane a b c) (sign_bit t) n (2 ^ 149)).
    { intros n (S1 & S2 & S3). split; [exact S1|]. split.
      - intros H. destruct S2 as (G1 & G2); [nia|]. split; [exact G1|]. intros y Fy. destruct (G2 y Fy) as (G3 & G4).
        assert (EQ : forall v, Z.abs (v * (2 ^ 149 * 2 ^ 776) - (if sign_bit t then - (n * 2 ^ 776) else n * 2 ^ 776)) = Z.abs (v * 2 ^ 149 - (if sign_bit t then - n else n)) * 2 ^ 776).
        { intros v. rewrite <- (Z.abs_eq (2 ^ 776)) at 4 by lia. rewrite <- Z.abs_mul. f_equal. destruct (sign_bit t); ring. }
        rewrite !EQ in G3, G4. split; [nia|]. intros Q. apply G4. nia.
      - intros H. apply S3. nia. }
    change (fone 4) with (2 ^ 149). apply SC. rewrite <- Z.pow_add_r by lia. rewrite (fabs_abs fp8), VT, Z.abs_mul, (Z.abs_eq (2 ^ 776)) in R by lia. exact R.
Qed.

Lemma C47_fma_float_refuted_main :
  exists a b c : word 4, has_value a 257 /\ has_value b 65281 /\ is_Finite c = true /\ fvalue c * 2 ^ 60 = fone 4 /\
    Forall (fun r => is_Finite r = true /\ ~ nearest r (fma_exact a b c) (fone 4)) (lanes 4 (v_fma_ps (pack [a; a; a; a]) (pack [b; b; b; b]) (pack [c; c; c; c]))).
Proof.
  exists (mkw 4 0x43808000), (mkw 4 0x477f0100), (mkw 4 0x21800000). split; [split; vm_compute; reflexivity|]. split; [split; vm_compute; reflexivity|].
  split; [reflexivity|]. split; [vm_compute; reflexivity|]. rewrite fma_ps_pack, lanes_pack by reflexivity. cbn [map3].
  assert (E : fma4_lane (mkw 4 0x43808000) (mkw 4 0x477f0100) (mkw 4 0x21800000) = mkw 4 0x4b800000) by (apply word_ext; vm_compute; reflexivity). rewrite E.
  assert (K : is_Finite (mkw 4 0x4b800000) = true /\ ~ nearest (mkw 4 0x4b800000) (fma_exact (mkw 4 0x43808000) (mkw 4 0x477f0100) (mkw 4 0x21800000)) (fone 4)).
  { split; [reflexivity|]. intros (_ & N). destruct (N (mkw 4 0x4b800001) eq_refl) as (H & _). revert H. vm_compute. intros H. apply H. reflexivity. }
  repeat (constructor; [exact K|]). constructor.
Qed.

Lemma C47_fma_double_partial_main :
  forall sse41 (a b c : list (word 8)), length a = 2%nat -> length b = 2%nat -> length c = 2%nat ->
    Forall2 (fun abc r => let '(a, (b, c)) := abc in is_Finite a = true -> is_Finite b = true -> is_Finite c = true ->
               fraction a mod 2 ^ 27 = 0 -> fraction b mod 2 ^ 27 = 0 ->
               (exists p : word 8, is_Finite p = true /\ fvalue p * fone 8 = fvalue a * fvalue b) ->
               Z.abs (fma_exact a b c) < overflow_at 8 * fone 8 -> nearest r (fma_exact a b c) (fone 8))
            (combine a (combine b c)) (lanes 8 (v_fma_pd sse41 (pack a) (pack b) (pack c))).
Proof.
  intros sse41 a b c La Lb Lc. two a. two b. two c. rewrite fma_pd_pack, lanes_pack by reflexivity. cbn [combine].
  constructor; [|constructor; [|constructor]]; cbv iota beta; intros; now apply fma8_ok.
Qed.

Lemma C47_fma_double_refuted_main :
  exists a c : word 8, is_Finite a = true /\ is_Finite c = true /\ fma_exact a a c * 2 ^ 104 = fone 8 * fone 8 /\
    forall sse41, map fvalue (lanes 8 (v_fma_pd sse41 (pack [a; a]) (pack [a; a]) (pack [c; c]))) = [0; 0].
Proof.
  exists (mkw 8 0x3ff0000000000001), (mkw 8 0xbff0000000000002). split; [reflexivity|]. split; [reflexivity|]. split; [vm_compute; reflexivity|].
  intros sse41. rewrite fma_pd_pack, lanes_pack by reflexivity. vm_compute. reflexivity.
Qed.

Lemma C47_fma_int_main :
  forall sse41 e (xs ys zs : list (elt e)), is_integer e = true -> length xs = (16 / esize e)%nat -> length ys = (16 / esize e)%nat -> length zs = (16 / esize e)%nat ->
    map uval (lanes (esize e) (v_fma_int sse41 e (pack xs) (pack ys) (pack zs))) =
    map3 (fun x y z => (uval x * uval y + uval z) mod 2 ^ (8 * Z.of_nat (esize e))) xs ys zs.
Proof.
  intros sse41 e xs ys zs He Lx Ly Lz. rewrite fma_int_pack by auto.
  assert (L3 : forall (f : elt e -> elt e -> elt e -> elt e) (a b c : list (elt e)) n, length a = n -> length b = n -> length c = n -> length (map3 f a b c) = n).
  { intros f. induction a as [|x a IH]; intros [|y b] [|z c] n A B C; cbn in *; subst; try discriminate; auto. }
  rewrite lanes_pack by (now apply L3). clear L3 Lx Ly Lz. revert ys zs. induction xs as [|x xs IH]; intros [|y ys] [|z zs]; cbn [map map3]; try reflexivity. f_equal; [|apply IH].
  unfold wadd, wmul. rewrite !uval_mkw, Zplus_mod_idemp_l. reflexivity.
Qed.

Lemma C40_random_int_main :
  forall sse41 s, length s = 16%nat ->
    lanes 4 (fst (random_int sse41 s)) = firstn 4 s /\ snd (random_int sse41 s) = snd (random_ps sse41 s).
Proof.
  intros sse41 s L. unfold random_int, random_ps.
  assert (E : fst (fst (random_step sse41 s)) = pack (firstn 4 s)) by reflexivity.
  destruct (random_step sse41 s) as ((s0 & s1) & s'). cbn [fst] in E. subst s0. cbn [fst snd]. split; [|reflexivity].
  apply (lanes_pack 4). rewrite firstn_length, L. reflexivity.
Qed.
