(** Lemmas about the functions of Model/Transcend: signs, NaN, infinities and zeros. *)
From Coq Require Import ZArith List Bool Lia.
From Verif.Spec Require Import Seq FloatSpec RoundSpec MathSpec TransSpec.
From Verif.Model Require Import Word Fp FpArith Transcend.
From Verif.Proof Require Import WordP SeqP FpP FpArithP FpIntP ConvertP ConvertRegP MathP.
Import ListNotations.
Local Open Scope Z_scope.

Lemma fp4 : fp_width 4. Proof. now left. Qed.
Lemma fp8 : fp_width 8. Proof. now right. Qed.

(** * signs *)
Section S.
  Context {w : nat} (Hw : fp_width w).
  Lemma mag_sign_pos : 0 < sign_weight w.
  Proof. pose proof (inf_bound Hw). lia. Qed.
  Lemma mag_fneg (x : word w) : magnitude (fneg x) = magnitude x.
  Proof. unfold fneg. apply (magnitude_with_sign Hw), (mag_range Hw). Qed.
  Lemma neg_fneg (x : word w) : negative (fneg x) = negb (negative x).
  Proof. unfold fneg. apply (negative_with_sign Hw), (mag_range Hw). Qed.
  Lemma word_parts (x y : word w) : magnitude x = magnitude y -> negative x = negative y -> x = y.
  Proof. intros M N. now rewrite <- (with_sign_eta Hw x), <- (with_sign_eta Hw y), M, N. Qed.
  Lemma fneg_fneg (x : word w) : fneg (fneg x) = x.
  Proof. apply word_parts; rewrite ?mag_fneg, ?neg_fneg; auto. apply negb_involutive. Qed.
  Lemma mag_abs (x : word w) : magnitude (l_abs x) = magnitude x.
  Proof. unfold l_abs. apply (magnitude_with_sign Hw), (mag_range Hw). Qed.
  Lemma neg_abs (x : word w) : negative (l_abs x) = false.
  Proof. unfold l_abs. apply (negative_with_sign Hw), (mag_range Hw). Qed.
  Lemma abs_fneg (x : word w) : l_abs (fneg x) = l_abs x.
  Proof. unfold l_abs. now rewrite mag_fneg. Qed.
  Lemma abs_pos (x : word w) : negative x = false -> l_abs x = x.
  Proof. intros N. apply word_parts; [apply mag_abs|]. now rewrite neg_abs. Qed.
  Lemma same_mag (x y : word w) : same_magnitude x y <-> magnitude x = magnitude y.
  Proof.
    unfold same_magnitude. split; [intros (F & E)|intros M].
    - rewrite (mag_fields Hw x), (mag_fields Hw y), F, E. reflexivity.
    - destruct (fields Hw x) as (-> & -> & _), (fields Hw y) as (-> & -> & _). now rewrite M.
  Qed.
  Lemma negated_fneg (x y : word w) : negated x y <-> y = fneg x.
  Proof.
    unfold negated. rewrite same_mag, !(sign_bit_neg Hw). split; [intros (M & N)|intros ->].
    - apply word_parts; rewrite ?mag_fneg, ?neg_fneg; auto.
    - now rewrite mag_fneg, neg_fneg.
  Qed.
  Lemma up_to_sign (x y : word w) : same_magnitude x y -> y = if Bool.eqb (sign_bit x) (sign_bit y) then x else fneg x.
  Proof.
    intros M. apply same_mag in M. rewrite !(sign_bit_neg Hw). destruct (negative x) eqn:Nx, (negative y) eqn:Ny; cbn [Bool.eqb]; apply word_parts; rewrite ?mag_fneg, ?neg_fneg, ?Nx, ?Ny; auto.
  Qed.
  Lemma fneg_with_sign neg m : 0 <= m < sign_weight w -> fneg (with_sign w neg m) = with_sign w (negb neg) m.
  Proof. intros M. unfold fneg. now rewrite (magnitude_with_sign Hw), (negative_with_sign Hw) by exact M. Qed.
  Lemma fround_fneg neg n d : 0 <= n -> 0 < d -> fneg (fround w neg n d) = fround w (negb neg) n d.
  Proof. intros N D. unfold fround. apply fneg_with_sign. pose proof (round_magnitude_bound Hw n d N D). pose proof (inf_bound Hw). lia. Qed.
  Lemma nan_fneg (x : word w) : is_nan (fneg x) = is_nan x.
  Proof. unfold is_nan. now rewrite mag_fneg. Qed.
  Lemma inf_fneg (x : word w) : is_inf (fneg x) = is_inf x.
  Proof. unfold is_inf. now rewrite mag_fneg. Qed.
  Lemma zero_fneg (x : word w) : is_zero (fneg x) = is_zero x.
  Proof. unfold is_zero. now rewrite mag_fneg. Qed.
  Lemma nan_abs (x : word w) : is_nan (l_abs x) = is_nan x.
  Proof. unfold is_nan. now rewrite mag_abs. Qed.
  Lemma key_fneg (x : word w) : fkey (fneg x) = - fkey x.
  Proof. unfold fkey. rewrite mag_fneg, neg_fneg. destruct (negative x); cbn [negb]; lia. Qed.
  Lemma fabs_fneg (x : word w) : fabs_value (fneg x) = fabs_value x.
  Proof. rewrite !(fabs_mval Hw). now rewrite mag_fneg. Qed.
  Lemma fraction_fneg (x : word w) : fraction (fneg x) = fraction x.
  Proof. destruct (fields Hw (fneg x)) as (-> & _), (fields Hw x) as (-> & _). now rewrite mag_fneg. Qed.
  Lemma quiet_sign (x : word w) : quiet x = with_sign w (negative x) (Z.lor (magnitude x) (2 ^ (mant_bits w - 1))).
  Proof.
    apply word_ext. unfold quiet. rewrite uval_mkw, (u_sign Hw x). pose proof (mag_range Hw x) as M.
    assert (B : 0 <= 2 ^ (mant_bits w - 1) < 2 ^ (bits w - 1)) by (destruct Hw as [->| ->]; vm_compute; split; congruence).
    pose proof (lor_split (bits w - 1) (if negative x then 1 else 0) 0 (magnitude x) (2 ^ (mant_bits w - 1)) (bit_nonneg Hw) ltac:(rewrite bits_sign; exact M) B) as L.
    rewrite bits_sign in *. rewrite Z.lor_0_r, Z.mul_0_l, Z.add_0_l in L.
    assert (R : 0 <= Z.lor (magnitude x) (2 ^ (mant_bits w - 1)) < sign_weight w).
    { split; [apply Z.lor_nonneg; lia|]. apply Z.log2_lt_cancel. rewrite Z.log2_lor by lia.
      assert (SW : Z.log2 (sign_weight w) = bits w - 1) by (rewrite <- bits_sign; apply Z.log2_pow2, (bit_nonneg Hw)). rewrite SW.
      apply Z.max_lub_lt.
      - destruct (Z.eq_dec (magnitude x) 0) as [->|]; [destruct Hw as [->| ->]; reflexivity|]. apply Z.log2_lt_pow2; [lia|]. rewrite bits_sign. lia.
      - destruct Hw as [->| ->]; reflexivity. }
    rewrite (with_sign_uval Hw) by exact R.
    replace (if negative x then sign_weight w else 0) with ((if negative x then 1 else 0) * sign_weight w) by (destruct (negative x); lia).
    rewrite L. rewrite Z.mod_small; [reflexivity|]. pose proof (mod_sign Hw). destruct (negative x); lia.
  Qed.
  Lemma quiet_mag_range (x : word w) : 0 <= Z.lor (magnitude x) (2 ^ (mant_bits w - 1)) < sign_weight w.
  Proof.
    pose proof (mag_range Hw x) as M. rewrite <- bits_sign in *. split; [apply Z.lor_nonneg; split; [lia|apply Z.pow_nonneg; lia]|].
    destruct (Z.eq_dec (magnitude x) 0) as [->|N]; [rewrite Z.lor_0_l; destruct Hw as [->| ->]; reflexivity|].
    apply Z.log2_lt_pow2; [|].
    - assert (0 <= Z.lor (magnitude x) (2 ^ (mant_bits w - 1))) by (apply Z.lor_nonneg; split; [lia|apply Z.pow_nonneg; lia]).
      assert (Z.lor (magnitude x) (2 ^ (mant_bits w - 1)) <> 0) by (intros E; apply Z.lor_eq_0_iff in E; lia). lia.
    - rewrite Z.log2_lor by (try (apply Z.pow_nonneg; lia); lia). apply Z.max_lub_lt; [apply Z.log2_lt_pow2; lia|]. destruct Hw as [->| ->]; reflexivity.
  Qed.
  Lemma quiet_fneg (x : word w) : quiet (fneg x) = fneg (quiet x).
  Proof. rewrite !quiet_sign, neg_fneg, mag_fneg, fneg_with_sign; auto using quiet_mag_range. Qed.
  Lemma flip_fneg s (x : word w) : l_flip s (fneg x) = fneg (l_flip s x).
  Proof. now destruct s. Qed.
  Lemma flip_negb s (x : word w) : l_flip (negb s) x = fneg (l_flip s x).
  Proof. destruct s; cbn [negb l_flip]; auto. now rewrite fneg_fneg. Qed.
End S.

(** conversions *)
Lemma to_double_fneg (x : word 4) : to_double (fneg x) = fneg (to_double x).
Proof.
  unfold to_double. rewrite (nan_fneg fp4), (inf_fneg fp4), (neg_fneg fp4), (fraction_fneg fp4), (fabs_fneg fp4).
  assert (FR : 0 <= fraction x < 2 ^ 23) by (unfold fraction; apply Z.mod_pos_bound; reflexivity).
  assert (MR : 0 <= inf_magnitude 8 + fraction x * 2 ^ 29 < sign_weight 8) by (change (inf_magnitude 8) with 0x7ff0000000000000; change (sign_weight 8) with (2 ^ 63); lia).
  destruct (is_nan x); [|destruct (is_inf x)].
  - rewrite <- (quiet_fneg fp8), (fneg_with_sign fp8) by exact MR. reflexivity.
  - rewrite (fneg_with_sign fp8); [reflexivity|]. pose proof (inf_bound fp8). lia.
  - rewrite (fround_fneg fp8); [reflexivity| |lia]. pose proof (fabs_nonneg fp4 x). apply Z.mul_nonneg_nonneg; [lia|]. apply Z.pow_nonneg. lia.
Qed.
Lemma to_float_fneg (x : word 8) : to_float (fneg x) = fneg (to_float x).
Proof.
  unfold to_float. rewrite (nan_fneg fp8), (inf_fneg fp8), (neg_fneg fp8), (fraction_fneg fp8), (fabs_fneg fp8).
  assert (FR : 0 <= fraction x < 2 ^ 52) by (unfold fraction; apply Z.mod_pos_bound; reflexivity).
  assert (MR : 0 <= inf_magnitude 4 + fraction x / 2 ^ 29 < sign_weight 4).
  { assert (0 <= fraction x / 2 ^ 29 < 2 ^ 23) by (split; [apply Z.div_pos; lia|apply Z.div_lt_upper_bound; lia]). change (inf_magnitude 4) with 0x7f800000. change (sign_weight 4) with (2 ^ 31). lia. }
  destruct (is_nan x); [|destruct (is_inf x)].
  - rewrite <- (quiet_fneg fp4), (fneg_with_sign fp4) by exact MR. reflexivity.
  - rewrite (fneg_with_sign fp4); [reflexivity|]. pose proof (inf_bound fp4). lia.
  - rewrite (fround_fneg fp4); [reflexivity| |reflexivity]. apply (fabs_nonneg fp8 x).
Qed.

(** * NaN *)
Section N.
  Context {w : nat} (Hw : fp_width w).
  Lemma nan_quiet (x : word w) : is_nan x = true -> is_nan (quiet x) = true.
  Proof. rewrite <- !(nan_ok Hw). apply (quiet_NaN Hw). Qed.
  Lemma nan2_l (a b r : word w) : is_nan a = true -> is_nan (nan2 a b r) = true.
  Proof. intros N. unfold nan2. rewrite N. now apply nan_quiet. Qed.
  Lemma nan2_r (a b r : word w) : is_nan b = true -> is_nan (nan2 a b r) = true.
  Proof. intros N. unfold nan2. rewrite N. destruct (is_nan a) eqn:A; now apply nan_quiet. Qed.
  Lemma nadd_l (a b : word w) : is_nan a = true -> is_nan (fadd a b) = true. Proof. apply nan2_l. Qed.
  Lemma nadd_r (a b : word w) : is_nan b = true -> is_nan (fadd a b) = true. Proof. apply nan2_r. Qed.
  Lemma nsub_l (a b : word w) : is_nan a = true -> is_nan (fsub a b) = true. Proof. apply nan2_l. Qed.
  Lemma nsub_r (a b : word w) : is_nan b = true -> is_nan (fsub a b) = true. Proof. apply nan2_r. Qed.
  Lemma nmul_l (a b : word w) : is_nan a = true -> is_nan (fmul a b) = true. Proof. apply nan2_l. Qed.
  Lemma nmul_r (a b : word w) : is_nan b = true -> is_nan (fmul a b) = true. Proof. apply nan2_r. Qed.
  Lemma ndiv_l (a b : word w) : is_nan a = true -> is_nan (fdiv a b) = true. Proof. apply nan2_l. Qed.
  Lemma ndiv_r (a b : word w) : is_nan b = true -> is_nan (fdiv a b) = true. Proof. apply nan2_r. Qed.
  Lemma nround m (a : word w) : is_nan a = true -> is_nan (round_to m a) = true.
  Proof. intros N. unfold round_to. rewrite N. now apply nan_quiet. Qed.
  Lemma nsqrt (a : word w) : is_nan a = true -> is_nan (fsqrt a) = true.
  Proof. intros N. unfold fsqrt. rewrite N. now apply nan_quiet. Qed.
  Lemma nflip s (a : word w) : is_nan a = true -> is_nan (l_flip s a) = true.
  Proof. destruct s; cbn [l_flip]; auto. now rewrite (nan_fneg Hw). Qed.
  Lemma nneg (a : word w) : is_nan a = true -> is_nan (fneg a) = true.
  Proof. now rewrite (nan_fneg Hw). Qed.
  Lemma nabs (a : word w) : is_nan a = true -> is_nan (l_abs a) = true.
  Proof. now rewrite (nan_abs Hw). Qed.
  Lemma nset k (a b : word w) : is_nan a = true -> is_nan b = true -> is_nan (l_set k a b) = true.
  Proof. now destruct k. Qed.
  Lemma nqnan_all : is_nan (mkw w (-1)) = true.
  Proof. destruct Hw as [->| ->]; reflexivity. Qed.
  Lemma nqnan k (a : word w) : is_nan a = true -> is_nan (l_qnan k a) = true.
  Proof. intros N. destruct k; cbn [l_qnan]; auto using nqnan_all. Qed.
  Lemma flt_nan_l (a b : word w) : is_nan a = true -> flt a b = false.
  Proof. intros N. unfold flt. now rewrite N. Qed.
  Lemma flt_nan_r (a b : word w) : is_nan b = true -> flt a b = false.
  Proof. intros N. unfold flt. rewrite N. cbn [negb]. rewrite andb_false_r. reflexivity. Qed.
  Lemma fle_nan_l (a b : word w) : is_nan a = true -> fle a b = false.
  Proof. intros N. unfold fle. now rewrite N. Qed.
  Lemma inf_pos (x : word w) : is_Inf x = true -> l_abs x = pos_inf w.
  Proof.
    intros I. assert (M : magnitude x = inf_magnitude w).
    { unfold is_Inf, all_ones_exponent in I. apply andb_prop in I. destruct I as (E & F). apply Z.eqb_eq in E, F. rewrite (mag_fields Hw x), E, F.
      destruct Hw as [->| ->]; reflexivity. }
    unfold l_abs. rewrite M. unfold with_sign, pos_inf. now rewrite Z.add_0_l.
  Qed.
  Lemma zero_mag (x : word w) : is_Zero x -> magnitude x = 0.
  Proof. intros (_ & V). apply (value_zero Hw x V). Qed.
  Lemma zero_abs (x : word w) : is_Zero x -> l_abs x = w0 w.
  Proof. intros Z. unfold l_abs. rewrite (zero_mag x Z). unfold with_sign, w0. now rewrite Z.add_0_l. Qed.
End N.
Global Hint Resolve nadd_l nadd_r nsub_l nsub_r nmul_l nmul_r ndiv_l ndiv_r nround nsqrt nflip nneg nabs nset nqnan fp4 fp8 : nan.
Lemma nto_double (x : word 4) : is_nan x = true -> is_nan (to_double x) = true.
Proof.
  intros N. unfold to_double. rewrite N. apply (nan_quiet fp8).
  assert (FR : 0 <= fraction x < 2 ^ 23) by (unfold fraction; apply Z.mod_pos_bound; reflexivity).
  assert (F0 : fraction x <> 0). { rewrite <- (nan_ok fp4) in N. unfold is_NaN in N. apply andb_prop in N. destruct N as (_ & N). now destruct (Z.eqb_spec (fraction x) 0). }
  unfold is_nan. rewrite (magnitude_with_sign fp8); [apply Z.ltb_lt; lia|]. change (inf_magnitude 8) with 0x7ff0000000000000. change (sign_weight 8) with (2 ^ 63). lia.
Qed.
Lemma quiet_any {w} (Hw : fp_width w) neg f : 0 <= f < 2 ^ mant_bits w -> is_nan (quiet (with_sign w neg (inf_magnitude w + f))) = true.
Proof. intros F. rewrite <- (nan_ok Hw). now apply (quiet_nan' Hw). Qed.
Lemma nto_float (x : word 8) : is_nan x = true -> is_nan (to_float x) = true.
Proof.
  intros N. unfold to_float. rewrite N. apply (quiet_any fp4).
  assert (FR : 0 <= fraction x < 2 ^ 52) by (unfold fraction; apply Z.mod_pos_bound; reflexivity).
  change (mant_bits 4) with 23. split; [apply Z.div_pos; lia|apply Z.div_lt_upper_bound; lia].
Qed.
Global Hint Resolve nto_double nto_float : nan.

(** * sin and cos as one function per entry, chosen by the absolute values of all entries *)
Inductive branch := Bzero | Bsmall | Bmedium | Blarge.
Definition branch8 (r : list (word 8)) : branch :=
  if forallb (fun x => flt x (pi_4 8)) r then Bzero
  else if forallb (fun x => flt x (fmul (of_int 8 1025) (pi_4 8))) r then Bsmall
  else if forallb (fun x => fle (turns8 x) (f8 1 0 30)) r then Bmedium else Blarge.
Definition lane8 (b : branch) (x : word 8) : folded 8 :=
  match b with
  | Bzero => (x, w0 8)
  | Bsmall => (fold8_small x, quadrant_of 8 (turns8 x))
  | Bmedium => (fold8_medium x, quadrant_of 8 (turns8 x))
  | Blarge => (fold8_large x, quadrant_of 8 (turns8 x))
  end.
Lemma pick8 (b1 b2 b3 : bool) (xs : list (word 8)) :
  (if b1 then map (fun x => (x, w0 8)) (map l_abs xs)
   else if b2 then map (fun x => (fold8_small x, quadrant_of 8 (turns8 x))) (map l_abs xs)
   else if b3 then map (fun x => (fold8_medium x, quadrant_of 8 (turns8 x))) (map l_abs xs)
   else map (fun x => (fold8_large x, quadrant_of 8 (turns8 x))) (map l_abs xs))
  = map (fun x => lane8 (if b1 then Bzero else if b2 then Bsmall else if b3 then Bmedium else Blarge) (l_abs x)) xs.
Proof. destruct b1, b2, b3; rewrite map_map; reflexivity. Qed.
Lemma fold8_lane xs : fold8 xs = map (fun x => lane8 (branch8 (map l_abs xs)) (l_abs x)) xs.
Proof. exact (pick8 _ _ _ xs). Qed.
Lemma map2_self {X Y Z} (f : X -> Y -> Z) g (xs : list X) : map2 f xs (map g xs) = map (fun x => f x (g x)) xs.
Proof. induction xs; cbn [map map2]; congruence. Qed.
Definition sin8_lane (b : branch) (x : word 8) : word 8 := finish_sin sin_series8 cos_series8 x (lane8 b (l_abs x)).
Definition cos8_lane (b : branch) (x : word 8) : word 8 := finish_cos sin_series8 cos_series8 (lane8 b (l_abs x)).
Lemma sin8_map xs : sin8 xs = map (sin8_lane (branch8 (map l_abs xs))) xs.
Proof. unfold sin8. rewrite fold8_lane, map2_self. reflexivity. Qed.
Lemma cos8_map xs : cos8 xs = map (cos8_lane (branch8 (map l_abs xs))) xs.
Proof. unfold cos8. rewrite fold8_lane, map_map. reflexivity. Qed.

Inductive branch_f := Fzero | Ffloat | Fdouble | Fwide (b : branch).
Definition branch4 (r : list (word 4)) : branch_f :=
  if forallb (fun x => flt x (pi_4 4)) r then Fzero
  else if forallb (fun x => flt x (fmul (of_int 4 33) (pi_4 4))) r then Ffloat else Fdouble.
Definition lane4 (b : branch_f) (x : word 4) : folded 4 :=
  match b with Fzero => (x, w0 4) | Ffloat => fold4_float x | _ => fold4_double x end.
Lemma pick4 (b1 b2 : bool) (xs : list (word 4)) :
  (if b1 then map (fun x => (x, w0 4)) (map l_abs xs) else if b2 then map fold4_float (map l_abs xs) else map fold4_double (map l_abs xs))
  = map (fun x => lane4 (if b1 then Fzero else if b2 then Ffloat else Fdouble) (l_abs x)) xs.
Proof. destruct b1, b2; rewrite map_map; reflexivity. Qed.
Lemma fold4_lane xs : fold4 xs = map (fun x => lane4 (branch4 (map l_abs xs)) (l_abs x)) xs.
Proof. exact (pick4 _ _ xs). Qed.
Lemma branch4_narrow r b : branch4 r <> Fwide b.
Proof. unfold branch4. generalize (forallb (fun x => flt x (pi_4 4)) r), (forallb (fun x => flt x (fmul (of_int 4 33) (pi_4 4))) r). intros [] []; discriminate. Qed.
Definition sin4_lane (b : branch_f) (x : word 4) : word 4 :=
  match b with Fwide b => to_float (sin8_lane b (to_double x)) | _ => finish_sin sin_series4 cos_series4 x (lane4 b (l_abs x)) end.
Definition cos4_lane (b : branch_f) (x : word 4) : word 4 :=
  match b with Fwide b => to_float (cos8_lane b (to_double x)) | _ => finish_cos sin_series4 cos_series4 (lane4 b (l_abs x)) end.
(** the branch taken for entry [i]: the two halves of the double path decide separately *)
Definition branch4_at (large : bool) (xs : list (word 4)) (i : nat) : branch_f :=
  if large then Fwide (branch8 (map l_abs (map to_double (if (i <? length xs / 2)%nat then lower_half xs else upper_half xs))))
  else branch4 (map l_abs xs).
Lemma nth_halves {A} (xs : list A) i d : nth i xs d = if (i <? length xs / 2)%nat then nth i (lower_half xs) d else nth (i - length xs / 2) (upper_half xs) d.
Proof.
  unfold lower_half, upper_half. assert (Hd : (length xs / 2 <= length xs)%nat) by (apply Nat.div_le_upper_bound; lia).
  rewrite <- (firstn_skipn (length xs / 2) xs) at 1. destruct (Nat.ltb_spec i (length xs / 2)).
  - apply app_nth1. rewrite firstn_length. lia.
  - rewrite app_nth2 by (rewrite firstn_length; lia). f_equal. rewrite firstn_length. lia.
Qed.
Lemma nth_map {A B} (f : A -> B) xs i d d' : (i < length xs)%nat -> nth i (map f xs) d' = f (nth i xs d).
Proof. intros H. rewrite (nth_indep _ d' (f d)) by (now rewrite map_length). apply map_nth. Qed.
Lemma in_double_nth f g xs i d : (forall ys, f ys = map (g (branch8 (map l_abs ys))) ys) -> (i < length xs)%nat ->
  nth i (in_double f xs) d = to_float (g (branch8 (map l_abs (map to_double (if (i <? length xs / 2)%nat then lower_half xs else upper_half xs)))) (to_double (nth i xs d))).
Proof.
  intros Hf Hi. unfold in_double. rewrite !Hf. set (bl := branch8 _). set (bu := branch8 (map l_abs (map to_double (upper_half xs)))).
  assert (Hd : (length xs / 2 <= length xs)%nat) by (apply Nat.div_le_upper_bound; lia).
  assert (Ll : length (lower_half xs) = (length xs / 2)%nat) by (unfold lower_half; rewrite firstn_length; lia).
  assert (Lu : length (upper_half xs) = (length xs - length xs / 2)%nat) by (unfold upper_half; now rewrite skipn_length).
  rewrite (nth_halves xs i d). destruct (Nat.ltb_spec i (length xs / 2)); [fold bl|fold bu]; clearbody bl bu; rewrite map_app, !map_map.
  - rewrite app_nth1 by (rewrite map_length, Ll; lia). apply (nth_map (fun x => to_float (g bl (to_double x)))). lia.
  - rewrite app_nth2 by (rewrite map_length, Ll; lia). rewrite map_length, Ll. apply (nth_map (fun x => to_float (g bu (to_double x)))). lia.
Qed.
Lemma in_double_length f g xs : (forall ys, f ys = map (g (branch8 (map l_abs ys))) ys) -> length (in_double f xs) = length xs.
Proof.
  intros Hf. unfold in_double. rewrite !Hf. rewrite map_length, app_length, !map_length, <- app_length. unfold lower_half, upper_half. now rewrite firstn_skipn.
Qed.
Lemma sin4_length c xs : length (sin4 c xs) = length xs.
Proof. unfold sin4. destruct (any_large c 527449 xs); [apply (in_double_length _ sin8_lane), sin8_map|]. now rewrite fold4_lane, map2_self, map_length. Qed.
Lemma cos4_length c xs : length (cos4 c xs) = length xs.
Proof. unfold cos4. destruct (any_large c 393382 xs); [apply (in_double_length _ cos8_lane), cos8_map|]. now rewrite fold4_lane, map_map, map_length. Qed.
Lemma sin8_length xs : length (sin8 xs) = length xs.
Proof. now rewrite sin8_map, map_length. Qed.
Lemma cos8_length xs : length (cos8 xs) = length xs.
Proof. now rewrite cos8_map, map_length. Qed.
Lemma sin4_nth c xs i d : (i < length xs)%nat -> nth i (sin4 c xs) d = sin4_lane (branch4_at (any_large c 527449 xs) xs i) (nth i xs d).
Proof.
  intros Hi. unfold sin4, branch4_at. destruct (any_large c 527449 xs).
  - now rewrite (in_double_nth _ sin8_lane) by (auto using sin8_map).
  - rewrite fold4_lane, map2_self. set (b := branch4 _). rewrite (nth_indep _ d (sin4_lane b d)) by (now rewrite map_length).
    transitivity (nth i (map (sin4_lane b) xs) (sin4_lane b d)); [|apply map_nth].
    f_equal. apply map_ext. intros a. unfold sin4_lane. destruct b eqn:E; auto. destruct (branch4_narrow _ _ E).
Qed.
Lemma cos4_nth c xs i d : (i < length xs)%nat -> nth i (cos4 c xs) d = cos4_lane (branch4_at (any_large c 393382 xs) xs i) (nth i xs d).
Proof.
  intros Hi. unfold cos4, branch4_at. destruct (any_large c 393382 xs).
  - now rewrite (in_double_nth _ cos8_lane) by (auto using cos8_map).
  - rewrite fold4_lane, map_map. set (b := branch4 _). rewrite (nth_indep _ d (cos4_lane b d)) by (now rewrite map_length).
    transitivity (nth i (map (cos4_lane b) xs) (cos4_lane b d)); [|apply map_nth].
    f_equal. apply map_ext. intros a. unfold cos4_lane. destruct b eqn:E; auto. destruct (branch4_narrow _ _ E).
Qed.

(** ** NaN and infinite arguments *)
Lemma nan_sin4 r : is_nan r = true -> is_nan (sin_series4 r) = true.
Proof. intros N. unfold sin_series4. cbv zeta. apply (nadd_r fp4). exact N. Qed.
Lemma nan_cos4 r : is_nan r = true -> is_nan (cos_series4 r) = true.
Proof. intros N. unfold cos_series4. cbv zeta. apply (nadd_l fp4), (nsub_r fp4), (nmul_r fp4), (nmul_r fp4). exact N. Qed.
Lemma nan_sin8 r : is_nan r = true -> is_nan (sin_series8 r) = true.
Proof. intros N. unfold sin_series8. cbv zeta. apply (nadd_r fp8). exact N. Qed.
Lemma nan_cos8 r : is_nan r = true -> is_nan (cos_series8 r) = true.
Proof. intros N. unfold cos_series8. cbv zeta. apply (nadd_l fp8), (nmul_r fp8), (nmul_r fp8). exact N. Qed.
Lemma nan_finish_sin {w} (Hw : fp_width w) s c (x : word w) f : (forall r, is_nan r = true -> is_nan (s r) = true) -> (forall r, is_nan r = true -> is_nan (c r) = true) ->
  is_nan (fst f) = true -> is_nan (finish_sin s c x f) = true.
Proof. intros Hs Hc N. destruct f as (r & q). cbn [fst] in N. unfold finish_sin. apply (nflip Hw). destruct (even_quadrant q); auto. Qed.
Lemma nan_finish_cos {w} (Hw : fp_width w) s c (f : folded w) : (forall r, is_nan r = true -> is_nan (s r) = true) -> (forall r, is_nan r = true -> is_nan (c r) = true) ->
  is_nan (fst f) = true -> is_nan (finish_cos s c f) = true.
Proof. intros Hs Hc N. destruct f as (r & q). cbn [fst] in N. unfold finish_cos. apply (nflip Hw). destruct (even_quadrant q); auto. Qed.
Lemma nan_large x : is_nan x = true -> is_nan (fold8_large x) = true.
Proof. intros N. unfold fold8_large. cbv zeta. do 7 apply (nsub_l fp8). exact N. Qed.
Lemma inf_large : is_nan (fold8_large (pos_inf 8)) = true.
Proof. vm_compute. reflexivity. Qed.
(** what NaN and infinite entries have in common *)
Definition bad {w} (x : word w) : Prop := is_nan x = true \/ is_Inf x = true.
Lemma bad_large x : bad x -> is_nan (fst (lane8 Blarge (l_abs x))) = true.
Proof. intros [N|I]; cbn [lane8 fst]; [apply nan_large, (nabs fp8), N|]. rewrite (inf_pos fp8 x I). exact inf_large. Qed.
Lemma forallb_off {A} (f : A -> bool) xs x : In x xs -> f x = false -> forallb f xs = false.
Proof. intros I F. destruct (forallb f xs) eqn:E; auto. rewrite forallb_forall in E. rewrite (E x I) in F. discriminate F. Qed.
Lemma all_off {A T} (f1 f2 f3 : A -> bool) xs x (a b c d : T) : In x xs -> f1 x = false -> f2 x = false -> f3 x = false ->
  (if forallb f1 xs then a else if forallb f2 xs then b else if forallb f3 xs then c else d) = d.
Proof. intros I E1 E2 E3. now rewrite (forallb_off f1 _ _ I E1), (forallb_off f2 _ _ I E2), (forallb_off f3 _ _ I E3). Qed.
Lemma turns_nan x : is_nan x = true -> is_nan (turns8 x) = true.
Proof. intros N. unfold turns8. apply (nround fp8), (ndiv_l fp8), N. Qed.
Lemma turns_inf : fle (turns8 (pos_inf 8)) (f8 1 0 30) = false.
Proof. vm_compute. reflexivity. Qed.
Lemma inf_not_lt8 : flt (pos_inf 8) (pi_4 8) = false /\ flt (pos_inf 8) (fmul (of_int 8 1025) (pi_4 8)) = false.
Proof. split; vm_compute; reflexivity. Qed.
Lemma bad_branch8 xs x : In x xs -> bad x -> branch8 (map l_abs xs) = Blarge.
Proof.
  intros I B. apply (in_map l_abs) in I. unfold branch8.
  assert (E : (fun x => flt x (pi_4 8)) (l_abs x) = false /\ (fun x => flt x (fmul (of_int 8 1025) (pi_4 8))) (l_abs x) = false /\ (fun x => fle (turns8 x) (f8 1 0 30)) (l_abs x) = false).
  { destruct B as [N|F].
    - pose proof (nabs fp8 x N) as N'. exact (conj (flt_nan_l _ _ N') (conj (flt_nan_l _ _ N') (fle_nan_l _ _ (turns_nan _ N')))).
    - rewrite (inf_pos fp8 x F). exact (conj (proj1 inf_not_lt8) (conj (proj2 inf_not_lt8) turns_inf)). }
  destruct E as (E1 & E2 & E3). exact (all_off (fun x => flt x (pi_4 8)) (fun x => flt x (fmul (of_int 8 1025) (pi_4 8))) (fun x => fle (turns8 x) (f8 1 0 30)) _ _ _ _ _ _ I E1 E2 E3).
Qed.
Lemma sin8_bad xs x : In x xs -> bad x -> is_nan (sin8_lane (branch8 (map l_abs xs)) x) = true.
Proof. intros I B. rewrite (bad_branch8 xs x I B). unfold sin8_lane. apply (nan_finish_sin fp8); auto using nan_sin8, nan_cos8. now apply bad_large. Qed.
Lemma cos8_bad xs x : In x xs -> bad x -> is_nan (cos8_lane (branch8 (map l_abs xs)) x) = true.
Proof. intros I B. rewrite (bad_branch8 xs x I B). unfold cos8_lane. apply (nan_finish_cos fp8); auto using nan_sin8, nan_cos8. now apply bad_large. Qed.
Lemma bad_double x : bad x -> bad (to_double x).
Proof.
  intros [N|I]; [left; now apply nto_double|right]. rewrite (inf_ok fp4) in I. assert (N : is_nan x = false) by (unfold is_inf in I; apply Z.eqb_eq in I; unfold is_nan; rewrite I; apply Z.ltb_irrefl).
  unfold to_double. rewrite N, I, (inf_ok fp8). unfold is_inf. rewrite (magnitude_with_sign fp8) by (pose proof (inf_bound fp8); lia). apply Z.eqb_refl.
Qed.
Lemma nan_double_fold x : is_nan x = true -> is_nan (fst (fold4_double x)) = true.
Proof. intros N. cbn [fold4_double fst]. apply nto_float, (nsub_l fp8), nto_double, (nabs fp4), N. Qed.
Lemma nan_branch4 xs x : In x xs -> is_nan x = true -> branch4 (map l_abs xs) = Fdouble.
Proof.
  intros I N. apply (in_map l_abs) in I. pose proof (nabs fp4 x N) as N'. unfold branch4.
  rewrite (forallb_off (fun x => flt x (pi_4 4)) _ _ I (flt_nan_l _ _ N')), (forallb_off (fun x => flt x (fmul (of_int 4 33) (pi_4 4))) _ _ I (flt_nan_l _ _ N')). reflexivity.
Qed.
Lemma inf_any_large c k xs x : k = 527449 \/ k = 393382 -> In x xs -> is_Inf x = true -> any_large c k xs = true.
Proof.
  intros K I F. unfold any_large. apply existsb_exists. exists x. split; [exact I|]. rewrite (inf_pos fp4 x F).
  destruct K as [->| ->]; vm_compute; reflexivity.
Qed.
Lemma in_half {A} (xs : list A) i d : (i < length xs)%nat -> In (nth i xs d) (if (i <? length xs / 2)%nat then lower_half xs else upper_half xs).
Proof.
  intros Hi. rewrite (nth_halves xs i d). unfold lower_half, upper_half. assert (Hd : (length xs / 2 <= length xs)%nat) by (apply Nat.div_le_upper_bound; lia).
  destruct (Nat.ltb_spec i (length xs / 2)); apply nth_In; [rewrite firstn_length|rewrite skipn_length]; lia.
Qed.
Lemma bad4 c k xs i d : k = 527449 \/ k = 393382 -> (i < length xs)%nat -> bad (nth i xs d) ->
  let b := branch4_at (any_large c k xs) xs i in is_nan (sin4_lane b (nth i xs d)) = true /\ is_nan (cos4_lane b (nth i xs d)) = true.
Proof.
  intros K Hi B. unfold branch4_at. destruct (any_large c k xs) eqn:L; cbv zeta.
  - unfold sin4_lane, cos4_lane. pose proof (in_map to_double _ _ (in_half xs i d Hi)) as I. pose proof (bad_double _ B) as B'.
    split; apply nto_float; [now apply sin8_bad|now apply cos8_bad].
  - assert (N : is_nan (nth i xs d) = true). { destruct B as [N|F]; auto. rewrite (inf_any_large c k xs _ K (nth_In _ _ Hi) F) in L. discriminate L. }
    rewrite (nan_branch4 xs _ (nth_In _ d Hi) N). unfold sin4_lane, cos4_lane, lane4.
    split; [apply (nan_finish_sin fp4)|apply (nan_finish_cos fp4)]; auto using nan_sin4, nan_cos4; apply nan_double_fold, (nabs fp4), N.
Qed.

(** ** parity *)
Lemma finish_sin_neg {w} (Hw : fp_width w) s c (x : word w) f : finish_sin s c (fneg x) f = fneg (finish_sin s c x f).
Proof. destruct f as (r & q). unfold finish_sin. rewrite (neg_fneg Hw), <- negb_xorb_l. apply (flip_negb Hw). Qed.
Lemma sin8_lane_neg b x : sin8_lane b (fneg x) = fneg (sin8_lane b x).
Proof. unfold sin8_lane. rewrite (abs_fneg fp8). apply (finish_sin_neg fp8). Qed.
Lemma cos8_lane_neg b x : cos8_lane b (fneg x) = cos8_lane b x.
Proof. unfold cos8_lane. now rewrite (abs_fneg fp8). Qed.
Lemma sin4_lane_neg b x : sin4_lane b (fneg x) = fneg (sin4_lane b x).
Proof.
  unfold sin4_lane. destruct b as [| | |b]; try (rewrite (abs_fneg fp4); apply (finish_sin_neg fp4)).
  now rewrite to_double_fneg, sin8_lane_neg, to_float_fneg.
Qed.
Lemma cos4_lane_neg b x : cos4_lane b (fneg x) = cos4_lane b x.
Proof. unfold cos4_lane. destruct b as [| | |b]; try (now rewrite (abs_fneg fp4)). now rewrite to_double_fneg, cos8_lane_neg. Qed.
(** vectors that agree up to signs take the same branches *)
Definition magnitudes_agree {w} (xs ys : list (word w)) : Prop := map l_abs xs = map l_abs ys.
Lemma agree_intro {w} (Hw : fp_width w) (xs ys : list (word w)) : same_but_signs xs ys -> magnitudes_agree xs ys.
Proof.
  intros (L & H). unfold magnitudes_agree. apply (nth_ext _ _ (w0 w) (w0 w)); [now rewrite !map_length|]. intros n Hn. rewrite map_length in Hn.
  rewrite (nth_map l_abs xs n (w0 w)), (nth_map l_abs ys n (w0 w)) by lia. unfold l_abs. f_equal.
  specialize (H (Z.of_nat n)). unfold an_entry, entry in H. rewrite !znth_in in H by lia. rewrite !Nat2Z.id in H. apply (same_mag Hw). apply H. lia.
Qed.
Lemma abs_to_double x : l_abs (to_double x) = to_double (l_abs x).
Proof.
  destruct (negative x) eqn:N.
  - replace (l_abs x) with (fneg x) by (apply (word_parts fp4); rewrite ?(mag_fneg fp4), ?(neg_fneg fp4), ?(mag_abs fp4), ?(neg_abs fp4), ?N; auto).
    rewrite to_double_fneg. apply (word_parts fp8); rewrite ?(mag_fneg fp8), ?(neg_fneg fp8), ?(mag_abs fp8), ?(neg_abs fp8); auto. unfold to_double. rewrite N.
    symmetry. apply negb_false_iff. assert (FR : 0 <= fraction x < 2 ^ 23) by (unfold fraction; apply Z.mod_pos_bound; reflexivity).
    destruct (is_nan x); [|destruct (is_inf x)].
    + rewrite (quiet_sign fp8), !(negative_with_sign fp8); auto using quiet_mag_range, fp8. change (inf_magnitude 8) with 0x7ff0000000000000. change (sign_weight 8) with (2 ^ 63). lia.
    + apply (negative_with_sign fp8). pose proof (inf_bound fp8). lia.
    + unfold fround. apply (negative_with_sign fp8). pose proof (fabs_nonneg fp4 x).
      pose proof (round_magnitude_bound fp8 (fabs_value x * 2 ^ (1074 - 149)) 1 ltac:(apply Z.mul_nonneg_nonneg; [lia|apply Z.pow_nonneg; lia]) ltac:(lia)). pose proof (inf_bound fp8). lia.
  - rewrite (abs_pos fp4 x N). apply (abs_pos fp8). unfold to_double. rewrite N.
    assert (FR : 0 <= fraction x < 2 ^ 23) by (unfold fraction; apply Z.mod_pos_bound; reflexivity).
    destruct (is_nan x); [|destruct (is_inf x)].
    + rewrite (quiet_sign fp8), !(negative_with_sign fp8); auto using quiet_mag_range, fp8. change (inf_magnitude 8) with 0x7ff0000000000000. change (sign_weight 8) with (2 ^ 63). lia.
    + apply (negative_with_sign fp8). pose proof (inf_bound fp8). lia.
    + unfold fround. apply (negative_with_sign fp8). pose proof (fabs_nonneg fp4 x).
      pose proof (round_magnitude_bound fp8 (fabs_value x * 2 ^ (1074 - 149)) 1 ltac:(apply Z.mul_nonneg_nonneg; [lia|apply Z.pow_nonneg; lia]) ltac:(lia)). pose proof (inf_bound fp8). lia.
Qed.
Lemma agree_length {w} (xs ys : list (word w)) : magnitudes_agree xs ys -> length xs = length ys.
Proof. intros A. rewrite <- (map_length l_abs xs), A. apply map_length. Qed.
Lemma agree_double (xs ys : list (word 4)) : map l_abs xs = map l_abs ys -> map l_abs (map to_double xs) = map l_abs (map to_double ys).
Proof.
  intros A. rewrite !map_map. rewrite (map_ext _ (fun x => to_double (l_abs x)) abs_to_double xs), (map_ext _ (fun x => to_double (l_abs x)) abs_to_double ys).
  rewrite <- !(map_map l_abs to_double). now rewrite A.
Qed.
Lemma agree_half (xs ys : list (word 4)) (b : bool) : magnitudes_agree xs ys ->
  map l_abs (if b then lower_half xs else upper_half xs) = map l_abs (if b then lower_half ys else upper_half ys).
Proof.
  intros A. pose proof (agree_length _ _ A) as L. unfold lower_half, upper_half. rewrite L. unfold magnitudes_agree in A.
  destruct b; [rewrite <- !firstn_map|rewrite <- !skipn_map]; now rewrite A.
Qed.
Lemma agree_large c k xs ys : magnitudes_agree xs ys -> any_large c k xs = any_large c k ys.
Proof.
  intros A. assert (G : forall l, any_large c k l = existsb (fun x => l_ge c x (of_int 4 k)) (map l_abs l)).
  { intros l. unfold any_large. induction l; cbn [map existsb]; congruence. }
  rewrite !G. now rewrite A.
Qed.
Lemma agree_branch4 c k xs ys i : magnitudes_agree xs ys -> branch4_at (any_large c k xs) xs i = branch4_at (any_large c k ys) ys i.
Proof.
  intros A. unfold branch4_at. rewrite (agree_large c k xs ys A), (agree_length _ _ A). destruct (any_large c k ys).
  - f_equal. f_equal. apply agree_double, (agree_half _ _ _ A).
  - unfold magnitudes_agree in A. now rewrite A.
Qed.

(** ** zeros *)
Lemma zero_cases {w} (Hw : fp_width w) (x : word w) : is_Zero x -> x = w0 w \/ x = fneg (w0 w).
Proof.
  intros Z. pose proof (zero_mag Hw x Z) as M. destruct (w0_zero Hw) as (M0 & N0 & _). destruct (negative x) eqn:N; [right|left]; apply (word_parts Hw); rewrite ?(mag_fneg Hw), ?(neg_fneg Hw), ?M, ?N, ?M0, ?N0; auto.
Qed.
Lemma sin8_zero b : sin8_lane b (w0 8) = w0 8.
Proof. destruct b; apply word_ext; vm_compute; reflexivity. Qed.
Lemma cos8_zero b : cos8_lane b (w0 8) = of_int 8 1.
Proof. destruct b; apply word_ext; vm_compute; reflexivity. Qed.
Lemma to_double_0 : to_double (w0 4) = w0 8.
Proof. apply word_ext. vm_compute. reflexivity. Qed.
Lemma to_float_0 : to_float (w0 8) = w0 4.
Proof. apply word_ext. vm_compute. reflexivity. Qed.
Lemma to_float_1 : to_float (of_int 8 1) = of_int 4 1.
Proof. apply word_ext. vm_compute. reflexivity. Qed.
Lemma sin4_zero b : sin4_lane b (w0 4) = w0 4.
Proof. destruct b as [| | |b]; [apply word_ext; vm_compute; reflexivity..|]. unfold sin4_lane. now rewrite to_double_0, sin8_zero, to_float_0. Qed.
Lemma cos4_zero b : cos4_lane b (w0 4) = of_int 4 1.
Proof. destruct b as [| | |b]; [apply word_ext; vm_compute; reflexivity..|]. unfold cos4_lane. now rewrite to_double_0, cos8_zero, to_float_1. Qed.

(** ** small arguments: the range reduction by multiples of pi/2 leaves |x| < pi/4 as it is *)
Lemma turns_zero {w} (Hw : fp_width w) n d : 0 <= n -> 0 < d -> 2 * n <= one_units w * d -> round_to ToNearest (fround w false n d) = w0 w.
Proof.
  intros N D H. assert (HM : exists m, 0 <= m < inf_magnitude w /\ 2 * mval (mant_bits w) m = one_units w).
  { exists ((2 ^ (exp_bits w - 1) - 2) * 2 ^ mant_bits w). destruct Hw as [->| ->]; vm_compute; repeat split; congruence. }
  destruct HM as (m & M & V). pose proof (one_units_pos Hw) as UP. pose proof (mant_pos Hw) as MP.
  pose proof (rnd_le (mant_bits w) MP n d m N D ltac:(lia) ltac:(nia)) as L. pose proof (rnd_nonneg (mant_bits w) MP n d N D) as L0.
  pose proof (inf_bound Hw) as IB.
  assert (R : 0 <= round_magnitude w n d <= m) by (rewrite round_magnitude_rnd; lia). unfold fround.
  set (k := round_magnitude w n d) in *. set (x := with_sign w false k).
  assert (F : is_Finite x = true) by (apply (finite_with_sign Hw); lia).
  assert (VX : fvalue x = mval (mant_bits w) k) by (unfold x; rewrite (fvalue_with_sign Hw) by lia; lia).
  assert (B : 0 <= 2 * fvalue x <= one_units w).
  { rewrite VX. pose proof (mval_nonneg Hw k ltac:(lia)). pose proof (mval_le (mant_bits w) MP k m ltac:(lia) ltac:(lia)). lia. }
  unfold round_to. rewrite (finite_not_nan Hw x F), (finite_not_inf Hw x F). rewrite round_int_eq.
  replace (rne (fvalue x) (one_units w)) with 0.
  - cbn [Z.abs]. rewrite Z.mul_0_l. unfold x. rewrite (negative_with_sign Hw) by lia.
    rewrite (fround_exact Hw false 0 1 0) by (try lia; rewrite mval_0 by (apply (mant_nonneg Hw)); lia). unfold with_sign, w0. f_equal.
  - rewrite rne_eq. rewrite (Z.div_small (fvalue x) (one_units w)), (Z.mod_small (fvalue x) (one_units w)) by lia.
    destruct (Z.ltb_spec (2 * fvalue x) (one_units w)); auto. destruct (Z.ltb_spec (one_units w) (2 * fvalue x)); [lia|]. reflexivity.
Qed.
Lemma fsub_zero {w} (Hw : fp_width w) (x z : word w) : is_Finite x = true -> negative x = false -> is_zero z = true -> fsub x z = x.
Proof.
  intros F N Z. pose proof Z as Z'. rewrite (is_zero_value Hw) in Z'. apply Z.eqb_eq in Z'. pose proof (fabs_abs Hw z) as FA.
  assert (FZ : is_Finite z = true). { rewrite (finite_mag Hw). unfold is_zero in Z. apply Z.eqb_eq in Z. rewrite Z. apply Z.ltb_lt. pose proof (inf_bound Hw). lia. }
  assert (VZ : fvalue z = 0) by lia.
  pose proof (fabs_nonneg Hw x) as P. pose proof (fvalue_abs Hw x) as VX. rewrite N in VX. pose proof (inf_bound Hw) as IB.
  assert (E0 : with_sign w false (magnitude x) = x) by (rewrite <- N; apply (with_sign_eta Hw)).
  unfold fsub, nan2, fadd_num. destruct (fneg_value Hw z) as (NV & _ & _ & _ & NI). rewrite NI, NV, VZ, !(finite_not_nan Hw), !(finite_not_inf Hw), N by auto. cbn [andb].
  destruct (Z.eqb_spec (fvalue x + - 0) 0) as [E|E].
  - rewrite <- E0 at 1. f_equal. symmetry. apply (value_zero Hw). lia.
  - replace (fvalue x + - 0 <? 0) with false by (symmetry; apply Z.ltb_ge; lia). rewrite <- E0 at 2. apply (fround_exact Hw); [lia| |].
    + pose proof (mag_range Hw x). rewrite (finite_mag Hw) in F. apply Z.ltb_lt in F. lia.
    + rewrite <- (fabs_mval Hw). lia.
Qed.
Lemma below_fabs {w} (Hw : fp_width w) (x c : word w) : negative x = false -> negative c = false -> flt x c = true ->
  is_nan x = false /\ magnitude x < magnitude c /\ fabs_value x <= mval (mant_bits w) (magnitude c - 1).
Proof.
  intros N C L. unfold flt in L. apply andb_prop in L. destruct L as (L & K). apply andb_prop in L. destruct L as (L & _). apply negb_true_iff in L.
  unfold fkey in K. rewrite N, C in K. apply Z.ltb_lt in K. pose proof (mag_range Hw x). repeat split; auto. rewrite (fabs_mval Hw). apply (mval_le _ (mant_pos Hw)); lia.
Qed.
Lemma finite_below {w} (Hw : fp_width w) (x : word w) m : magnitude x < m -> m <= inf_magnitude w -> is_Finite x = true.
Proof. intros L M. rewrite (finite_mag Hw). apply Z.ltb_lt. lia. Qed.
Lemma zeros4a : is_zero (fmul (w0 4) (f4 1 0x490fe0 0)) = true. Proof. vm_compute. reflexivity. Qed.
Lemma zeros4b : is_zero (fmul (w0 4) (f4 (-1) 0x2bbbd3 (-21))) = true. Proof. vm_compute. reflexivity. Qed.
Lemma zeros8a : is_zero (fmul (w0 8) (f8 1 0x921fb54443000 0)) = true. Proof. vm_compute. reflexivity. Qed.
Lemma zeros8b : is_zero (fmul (w0 8) (f8 (-1) 0x73dcb3b39a000 (-43))) = true. Proof. vm_compute. reflexivity. Qed.
Lemma zeros8c : is_zero (fmul (w0 8) (f8 1 0x45c06e0e68948 (-86))) = true. Proof. vm_compute. reflexivity. Qed.
Lemma fold4_float_small (x : word 4) : negative x = false -> flt x (pi_4 4) = true -> fold4_float x = (x, w0 4).
Proof.
  intros N L. destruct (below_fabs fp4 x (pi_4 4) N eq_refl L) as (NN & M & V). pose proof (finite_below fp4 x _ M ltac:(vm_compute; congruence)) as F.
  unfold fold4_float. cbv zeta. set (c := f4 1 0x22f983 (-1)).
  assert (E : round_to ToNearest (fmul x c) = w0 4).
  { unfold fmul, nan2. rewrite NN, (finite_not_inf fp4 x F), N. change (is_nan c) with false. change (is_inf c) with false. change (negative c) with false. cbn [orb xorb].
    apply (turns_zero fp4).
    - apply Z.mul_nonneg_nonneg; apply (fabs_nonneg fp4).
    - apply (one_units_pos fp4).
    - apply Z.le_trans with (2 * (mval (mant_bits 4) (magnitude (pi_4 4) - 1) * fabs_value c)).
      + pose proof (fabs_nonneg fp4 c). nia.
      + vm_compute. congruence. }
  rewrite E. replace (quadrant_of 4 (w0 4)) with (w0 4) by (apply word_ext; vm_compute; reflexivity).
  rewrite (fsub_zero fp4 x (fmul (w0 4) (f4 1 0x490fe0 0)) F N zeros4a), (fsub_zero fp4 x (fmul (w0 4) (f4 (-1) 0x2bbbd3 (-21))) F N zeros4b). reflexivity.
Qed.
Lemma turns8_small (x : word 8) : negative x = false -> flt x (pi_4 8) = true -> turns8 x = w0 8 /\ is_Finite x = true.
Proof.
  intros N L. destruct (below_fabs fp8 x (pi_4 8) N eq_refl L) as (NN & M & V). pose proof (finite_below fp8 x _ M ltac:(vm_compute; congruence)) as F.
  split; [|exact F]. unfold turns8. set (c := fmul (of_int 8 2) (pi_4 8)).
  assert (CN : is_nan c = false /\ is_inf c = false /\ negative c = false /\ is_zero c = false /\ 2 * mval (mant_bits 8) (magnitude (pi_4 8) - 1) <= fabs_value c) by (vm_compute; repeat split; congruence).
  destruct CN as (C1 & C2 & C3 & C4 & C5). unfold fdiv, nan2. rewrite NN, (finite_not_inf fp8 x F), N, C1, C2, C3, C4. cbn [xorb].
  pose proof (one_units_pos fp8). pose proof (fabs_nonneg fp8 x). pose proof (fabs_nonneg fp8 c). apply (turns_zero fp8).
  - apply Z.mul_nonneg_nonneg; lia.
  - rewrite (is_zero_value fp8) in C4. apply Z.eqb_neq in C4. lia.
  - rewrite (Z.mul_comm (fabs_value x)), Z.mul_assoc, (Z.mul_comm 2), <- Z.mul_assoc. apply Z.mul_le_mono_nonneg_l; lia.
Qed.
Lemma fold8_small_small (x : word 8) : negative x = false -> flt x (pi_4 8) = true -> lane8 Bsmall x = lane8 Bzero x.
Proof.
  intros N L. destruct (turns8_small x N L) as (T & F). cbn [lane8]. unfold fold8_small. rewrite T.
  replace (quadrant_of 8 (w0 8)) with (w0 8) by (apply word_ext; vm_compute; reflexivity).
  rewrite (fsub_zero fp8 x (fmul (w0 8) (f8 1 0x921fb54443000 0)) F N zeros8a), (fsub_zero fp8 x (fmul (w0 8) (f8 (-1) 0x73dcb3b39a000 (-43))) F N zeros8b), (fsub_zero fp8 x (fmul (w0 8) (f8 1 0x45c06e0e68948 (-86))) F N zeros8c). reflexivity.
Qed.
Lemma within_lt {w} (Hw : fp_width w) b (x c : word w) : within b x -> is_NaN c = false -> b * fone w < fvalue c -> flt (l_abs x) c = true.
Proof.
  intros (F & V) N L. rewrite (flt_ok Hw). unfold float_lt, ordered. destruct (abs_facts Hw x) as (FA & VA & _). unfold l_abs.
  rewrite N. rewrite (nan_ok Hw), (finite_not_nan Hw) by (now rewrite FA). cbn [negb andb]. apply Z.ltb_lt. rewrite VA, (fabs_abs Hw). lia.
Qed.
Lemma lim4 : is_NaN (fmul (of_int 4 33) (pi_4 4)) = false /\ 25 * fone 4 < fvalue (fmul (of_int 4 33) (pi_4 4)).
Proof. vm_compute. split; congruence. Qed.
Lemma lim8 : is_NaN (fmul (of_int 8 1025) (pi_4 8)) = false /\ 805 * fone 8 < fvalue (fmul (of_int 8 1025) (pi_4 8)).
Proof. vm_compute. split; congruence. Qed.
Lemma near_branch8 xs : Forall (within 805) xs -> branch8 (map l_abs xs) = Bzero /\ Forall (fun x => flt (l_abs x) (pi_4 8) = true) xs \/ branch8 (map l_abs xs) = Bsmall.
Proof.
  intros H. unfold branch8. destruct (forallb (fun x => flt x (pi_4 8)) (map l_abs xs)) eqn:E1.
  - left. split; [reflexivity|]. rewrite forallb_forall in E1. apply Forall_forall. intros x I. exact (E1 (l_abs x) (in_map l_abs _ _ I)).
  - right. assert (E2 : forallb (fun x => flt x (fmul (of_int 8 1025) (pi_4 8))) (map l_abs xs) = true).
    { apply forallb_forall. intros y I. apply in_map_iff in I. destruct I as (x & <- & I). rewrite Forall_forall in H. exact (within_lt fp8 805 x _ (H x I) (proj1 lim8) (proj2 lim8)). }
    rewrite E2. reflexivity.
Qed.
Lemma near_lane8 xs i d : Forall (within 805) xs -> (i < length xs)%nat ->
  nth i (sin8 xs) d = sin8_lane Bsmall (nth i xs d) /\ nth i (cos8 xs) d = cos8_lane Bsmall (nth i xs d).
Proof.
  intros H Hi. rewrite sin8_map, cos8_map, !(nth_map _ xs i d d) by exact Hi. destruct (near_branch8 xs H) as [(-> & A)| ->]; [|now split].
  rewrite Forall_forall in A. specialize (A _ (nth_In xs d Hi)). unfold sin8_lane, cos8_lane. rewrite (fold8_small_small _ (neg_abs fp8 _) A). now split.
Qed.
Lemma near_branch4 xs : Forall (within 25) xs -> branch4 (map l_abs xs) = Fzero /\ Forall (fun x => flt (l_abs x) (pi_4 4) = true) xs \/ branch4 (map l_abs xs) = Ffloat.
Proof.
  intros H. unfold branch4. destruct (forallb (fun x => flt x (pi_4 4)) (map l_abs xs)) eqn:E1.
  - left. split; [reflexivity|]. rewrite forallb_forall in E1. apply Forall_forall. intros x I. exact (E1 (l_abs x) (in_map l_abs _ _ I)).
  - right. assert (E2 : forallb (fun x => flt x (fmul (of_int 4 33) (pi_4 4))) (map l_abs xs) = true).
    { apply forallb_forall. intros y I. apply in_map_iff in I. destruct I as (x & <- & I). rewrite Forall_forall in H. exact (within_lt fp4 25 x _ (H x I) (proj1 lim4) (proj2 lim4)). }
    rewrite E2. reflexivity.
Qed.
Lemma big4 : is_NaN (of_int 4 527449) = false /\ is_NaN (of_int 4 393382) = false /\ 393381 * fone 4 < fvalue (of_int 4 393382) /\ fvalue (of_int 4 393382) = 393382 * fone 4 /\ fvalue (of_int 4 527449) = 527449 * fone 4.
Proof. vm_compute. repeat split; congruence. Qed.
Lemma not_large c k b xs : k = 527449 \/ k = 393382 -> b < k -> Forall (within b) xs -> any_large c k xs = false.
Proof.
  intros K L H. unfold any_large. apply not_true_iff_false. intros E. apply existsb_exists in E. destruct E as (x & I & E). rewrite Forall_forall in H. specialize (H x I). destruct big4 as (N1 & N2 & _ & V1 & V2).
  assert (KV : is_NaN (of_int 4 k) = false /\ fvalue (of_int 4 k) = k * fone 4) by (destruct K as [->| ->]; split; assumption). destruct KV as (KN & KV).
  pose proof (within_lt fp4 b x (of_int 4 k) H KN ltac:(rewrite KV; change (fone 4) with (2 ^ 149); nia)) as LT.
  unfold l_ge, unordered in E. unfold flt in LT. destruct (is_nan (l_abs x)), (is_nan (of_int 4 k)); cbn [negb andb orb] in *; try discriminate LT. unfold fle in E.
  apply andb_prop in E. destruct E as (_ & E). apply Z.ltb_lt in LT. apply Z.leb_le in E. lia.
Qed.
Lemma near_lane4 c xs i d : Forall (within 25) xs -> (i < length xs)%nat ->
  nth i (sin4 c xs) d = sin4_lane Ffloat (nth i xs d) /\ nth i (cos4 c xs) d = cos4_lane Ffloat (nth i xs d).
Proof.
  intros H Hi. rewrite sin4_nth, cos4_nth by exact Hi. rewrite !(not_large c _ 25 xs) by (auto; lia). unfold branch4_at.
  destruct (near_branch4 xs H) as [(-> & A)| ->]; [|now split].
  rewrite Forall_forall in A. specialize (A _ (nth_In xs d Hi)). unfold sin4_lane, cos4_lane. cbn [lane4]. rewrite (fold4_float_small _ (neg_abs fp4 _) A). now split.
Qed.
Lemma is_large c k xs x : k = 527449 \/ k = 393382 -> In x xs -> is_Finite x = true -> k * fone 4 <= Z.abs (fvalue x) -> any_large c k xs = true.
Proof.
  intros K I F V. unfold any_large. apply existsb_exists. exists x. split; [exact I|]. destruct big4 as (N1 & N2 & _ & V1 & V2).
  assert (KV : is_NaN (of_int 4 k) = false /\ fvalue (of_int 4 k) = k * fone 4) by (destruct K as [->| ->]; split; assumption). destruct KV as (KN & KV).
  unfold l_ge, unordered. destruct (abs_facts fp4 x) as (FA & VA & _). fold (l_abs x) in *. rewrite (nan_ok fp4) in KN. rewrite KN.
  assert (NA : is_nan (l_abs x) = false) by (apply (finite_not_nan fp4); now rewrite FA). rewrite NA. cbn [orb]. rewrite (fle_ok fp4). unfold float_le, ordered. rewrite !(nan_ok fp4), NA, KN. cbn [negb andb].
  apply Z.leb_le. rewrite KV, VA, (fabs_abs fp4). exact V.
Qed.

(** ** for the theorems *)
Lemma sin4_zeros b x : is_Zero x -> sin4_lane b x = x.
Proof. intros Z. destruct (zero_cases fp4 x Z) as [E|E]; rewrite E; [apply sin4_zero|]. rewrite (sin4_lane_neg b (w0 4)), sin4_zero. reflexivity. Qed.
Lemma cos4_zeros b x : is_Zero x -> cos4_lane b x = of_int 4 1.
Proof. intros Z. destruct (zero_cases fp4 x Z) as [E|E]; rewrite E; [apply cos4_zero|]. rewrite (cos4_lane_neg b (w0 4)). apply cos4_zero. Qed.
Lemma sin8_zeros b x : is_Zero x -> sin8_lane b x = x.
Proof. intros Z. destruct (zero_cases fp8 x Z) as [E|E]; rewrite E; [apply sin8_zero|]. rewrite (sin8_lane_neg b (w0 8)), sin8_zero. reflexivity. Qed.
Lemma cos8_zeros b x : is_Zero x -> cos8_lane b x = of_int 8 1.
Proof. intros Z. destruct (zero_cases fp8 x Z) as [E|E]; rewrite E; [apply cos8_zero|]. rewrite (cos8_lane_neg b (w0 8)). apply cos8_zero. Qed.
Lemma one_value4 : has_value (of_int 4 1) 1.
Proof. vm_compute. split; reflexivity. Qed.
Lemma one_value8 : has_value (of_int 8 1) 1.
Proof. vm_compute. split; reflexivity. Qed.
Lemma differ {w} (a b : word w) : (uval a =? uval b) = false -> a <> b.
Proof. intros H ->. now rewrite Z.eqb_refl in H. Qed.
Lemma differ_hd {w} (a b : list (word w)) : (uval (hd (w0 w) a) =? uval (hd (w0 w) b)) = false -> a <> b.
Proof. intros H ->. now rewrite Z.eqb_refl in H. Qed.
