(** Properties of the rounding in Model/FpArith. *)
From Coq Require Import ZArith List Bool Lia.
From Verif.Spec Require Import FloatSpec RoundSpec.
From Verif.Model Require Import Word Fp FpArith.
From Verif.Proof Require Import WordP FpP.
Import ListNotations.
Local Open Scope Z_scope.

(** ** the reduced fractions *)
Lemma reduce_pos_spec p : forall q, exists k, p = (k * fst (reduce_pos p q))%positive /\ q = (k * snd (reduce_pos p q))%positive.
Proof.
  induction p as [p IH|p IH|]; intros q; try (exists 1%positive; destruct q; split; reflexivity).
  destruct q as [q|q|]; try (exists 1%positive; split; reflexivity).
  destruct (IH q) as (k & A & B). exists (xO k). change (reduce_pos p~0 q~0) with (reduce_pos p q). split; lia.
Qed.
Lemma reduce_spec n d : exists k, 0 < k /\ n = k * fst (reduce n d) /\ d = k * snd (reduce n d).
Proof.
  assert (T : exists k, 0 < k /\ n = k * n /\ d = k * d) by (exists 1; lia).
  destruct n as [|p|p], d as [|q|q]; try exact T; destruct (reduce_pos_spec p q) as (k & A & B); exists (Zpos k); cbn [reduce fst snd]; lia.
Qed.
Lemma quick_div_eq n d : quick_div n d = n / d.
Proof.
  unfold quick_div. destruct (reduce_spec n d) as (k & K & A & B). destruct (reduce n d) as [n' d']. cbn [fst snd] in A, B. subst n d.
  destruct (Z.eq_dec d' 0) as [->|N]; [rewrite Z.mul_0_r, !Zdiv_0_r; reflexivity|]. now rewrite Z.div_mul_cancel_l by lia.
Qed.
Lemma rne_eq n d :
  rne n d = if 2 * (n mod d) <? d then n / d else if d <? 2 * (n mod d) then n / d + 1 else if Z.even (n / d) then n / d else n / d + 1.
Proof.
  unfold rne. destruct (reduce_spec n d) as (k & K & A & B). destruct (reduce n d) as [n' d']. cbn [fst snd] in A, B. subst n d.
  replace (Z.div_eucl n' d') with (n' / d', n' mod d') by (unfold Z.div, Z.modulo; now destruct (Z.div_eucl n' d')).
  destruct (Z.eq_dec d' 0) as [->|N].
  { rewrite Z.mul_0_r, !Zdiv_0_r, !Zmod_0_r. cbn [Z.even]. destruct (Z.ltb_spec (2 * n') 0), (Z.ltb_spec (2 * (k * n')) 0), (Z.ltb_spec 0 (2 * n')), (Z.ltb_spec 0 (2 * (k * n'))); auto; nia. }
  rewrite Z.div_mul_cancel_l, Zmult_mod_distr_l by lia.
  destruct (Z.ltb_spec (2 * (k * (n' mod d'))) (k * d')), (Z.ltb_spec (2 * (n' mod d')) d'); auto; try nia.
  destruct (Z.ltb_spec (k * d') (2 * (k * (n' mod d')))), (Z.ltb_spec d' (2 * (n' mod d'))); auto; nia.
Qed.
Lemma round_magnitude_eq w n d :
  round_magnitude w n d = let e := Z.max 0 (Z.log2 (n / d) - mant_bits w) in Z.min (inf_magnitude w) (e * 2 ^ mant_bits w + rne n (d * 2 ^ e)).
Proof. unfold round_magnitude. now rewrite quick_div_eq. Qed.
Lemma round_int_eq {w} r (x : word w) :
  round_int r x = match r with ToNearest => rne (fvalue x) (one_units w) | Down => fvalue x / one_units w
                             | Up => - (- fvalue x / one_units w) | ToZero => Z.quot (fvalue x) (one_units w) end.
Proof. unfold round_int. now rewrite !quick_div_eq. Qed.

(** ** rne *)
Lemma rne_cases n d : 0 < d ->
  let q := n / d in
  q * d <= n < (q + 1) * d /\
  (rne n d = q /\ 2 * (n - q * d) <= d /\ (2 * (n - q * d) = d -> Z.even q = true) \/
   rne n d = q + 1 /\ d <= 2 * (n - q * d) /\ (2 * (n - q * d) = d -> Z.even (q + 1) = true)).
Proof.
  intros Hd q. pose proof (Z.div_mod n d ltac:(lia)) as D. pose proof (Z.mod_pos_bound n d Hd) as B. fold q in D.
  split; [lia|]. rewrite rne_eq. fold q. set (r := n mod d) in *.
  assert (ER : n - q * d = r) by lia. rewrite ER.
  destruct (Z.ltb_spec (2 * r) d); [left; split; [reflexivity|lia]|].
  destruct (Z.ltb_spec d (2 * r)); [right; split; [reflexivity|lia]|].
  destruct (Z.even q) eqn:E; [left; split; [reflexivity|split; [lia|auto]]|]. right. split; [reflexivity|]. split; [lia|]. intros _.
  rewrite Z.even_add, E. reflexivity.
Qed.
Lemma rne_exact k d : 0 < d -> rne (k * d) d = k.
Proof. intros H. rewrite rne_eq. rewrite Z.div_mul, Z.mod_mul by lia. destruct (Z.ltb_spec (2 * 0) d); lia. Qed.

(** ** values of patterns *)
Lemma mval_ek p e k : 0 < p -> 0 <= e -> 0 <= k <= 2 ^ (p + 1) -> (e = 0 \/ 2 ^ p <= k) -> mval p (e * 2 ^ p + k) = k * 2 ^ e.
Proof.
  intros Hp He Hk H. pose proof (pow_pos2 p ltac:(lia)) as P. rewrite Z.pow_add_r in Hk by lia. change (2 ^ 1) with 2 in Hk.
  assert (H' : k < 2 ^ p \/ 2 ^ p <= k < 2 * 2 ^ p \/ k = 2 * 2 ^ p) by lia. unfold mval. destruct H' as [Q|[Q|Q]].
  - assert (e = 0) by lia. subst e. rewrite Z.mul_0_l, Z.add_0_l, Z.div_small, Z.mod_small by lia. cbn. lia.
  - replace (e * 2 ^ p + k) with ((k - 2 ^ p) + (e + 1) * 2 ^ p) by lia. rewrite Z.div_add, Z.mod_add by lia. rewrite Z.div_small, Z.mod_small by lia.
    destruct (Z.eqb_spec (0 + (e + 1)) 0); [lia|]. replace (0 + (e + 1) - 1) with e by lia. ring.
  - replace (e * 2 ^ p + k) with (0 + (e + 2) * 2 ^ p) by lia. rewrite Z.div_add, Z.mod_add by lia. rewrite Z.div_0_l, Z.mod_0_l by lia.
    destruct (Z.eqb_spec (0 + (e + 2)) 0); [lia|]. replace (0 + (e + 2) - 1) with (e + 1) by lia. rewrite Q, Z.pow_add_r by lia. change (2 ^ 1) with 2. ring.
Qed.
(** every representable value is k * 2^e *)
Lemma mval_inv p m : 0 < p -> 0 <= m -> exists e k, 0 <= e /\ 0 <= k < 2 ^ (p + 1) /\ (e = 0 \/ 2 ^ p <= k) /\ m = e * 2 ^ p + k /\ mval p m = k * 2 ^ e.
Proof.
  intros Hp Hm. pose proof (pow_pos2 p ltac:(lia)) as P. pose proof (Z.div_mod m (2 ^ p) ltac:(lia)) as D. pose proof (Z.mod_pos_bound m (2 ^ p) P) as B.
  assert (Q : 0 <= m / 2 ^ p) by (apply Z.div_pos; lia).
  destruct (Z.eq_dec (m / 2 ^ p) 0) as [Z0|Z0].
  - exists 0, m. rewrite Z0 in D. assert (m < 2 ^ (p + 1)) by (rewrite Z.pow_add_r by lia; change (2 ^ 1) with 2; lia).
    repeat split; auto; try lia. pose proof (mval_ek p 0 m Hp ltac:(lia) ltac:(lia) ltac:(lia)) as E. now rewrite Z.mul_0_l, Z.add_0_l in E.
  - exists (m / 2 ^ p - 1), (2 ^ p + m mod 2 ^ p). assert (K : 2 ^ p + m mod 2 ^ p < 2 ^ (p + 1)) by (rewrite Z.pow_add_r by lia; change (2 ^ 1) with 2; lia).
    repeat split; try lia. replace m with ((m / 2 ^ p - 1) * 2 ^ p + (2 ^ p + m mod 2 ^ p)) at 1 by lia. apply mval_ek; lia.
Qed.

(** ** the rounding *)
Section Round.
  Context (p : Z) (Hp : 0 < p).
  Definition rnd (n d : Z) : Z :=
    let e := Z.max 0 (Z.log2 (n / d) - p) in e * 2 ^ p + rne n (d * 2 ^ e).
  (** the rounded pattern is one of the two neighbours, the nearer one *)
  Lemma rnd_spec n d : 0 <= n -> 0 < d ->
    exists m0, 0 <= m0 /\ mval p m0 * d <= n < mval p (m0 + 1) * d /\
      (rnd n d = m0 /\ 2 * n <= (mval p m0 + mval p (m0 + 1)) * d /\ (2 * n = (mval p m0 + mval p (m0 + 1)) * d -> Z.even m0 = true) \/
       rnd n d = m0 + 1 /\ (mval p m0 + mval p (m0 + 1)) * d <= 2 * n /\ (2 * n = (mval p m0 + mval p (m0 + 1)) * d -> Z.even (m0 + 1) = true)).
  Proof.
    intros Hn Hd. unfold rnd. set (x := n / d). assert (X0 : 0 <= x) by (apply Z.div_pos; lia).
    set (e := Z.max 0 (Z.log2 x - p)). assert (He : 0 <= e) by lia. pose proof (pow_pos2 e He) as PE. pose proof (pow_pos2 p ltac:(lia)) as PP.
    assert (DE : 0 < d * 2 ^ e) by nia. destruct (rne_cases n (d * 2 ^ e) DE) as [B C]. set (q := n / (d * 2 ^ e)) in *.
    assert (QX : q = x / 2 ^ e) by (unfold q, x; now rewrite Z.div_div by lia).
    assert (XB : x < 2 ^ (p + 1 + e)).
    { destruct (Z.eq_dec x 0) as [->|]; [apply pow_pos2; lia|]. pose proof (Z.log2_spec x ltac:(lia)) as L. eapply Z.lt_le_trans; [apply L|]. apply Z.pow_le_mono_r; lia. }
    assert (QB : 0 <= q < 2 ^ (p + 1)).
    { rewrite QX. split; [apply Z.div_pos; lia|]. apply Z.div_lt_upper_bound; [lia|]. rewrite <- Z.pow_add_r by lia. now replace (e + (p + 1)) with (p + 1 + e) by lia. }
    assert (QL : e = 0 \/ 2 ^ p <= q).
    { destruct (Z.eq_dec e 0) as [|N]; [now left|right]. rewrite QX. apply Z.div_le_lower_bound; [lia|]. rewrite <- Z.pow_add_r by lia.
      assert (x <> 0) by (intros ->; unfold e in N; cbn in N; lia). pose proof (Z.log2_spec x ltac:(lia)) as L. eapply Z.le_trans; [|apply L]. apply Z.pow_le_mono_r; lia. }
    exists (e * 2 ^ p + q). split; [nia|]. assert (E1 : mval p (e * 2 ^ p + q) = q * 2 ^ e) by (apply mval_ek; lia).
    assert (E2 : mval p (e * 2 ^ p + q + 1) = (q + 1) * 2 ^ e) by (rewrite <- Z.add_assoc; apply mval_ek; lia).
    rewrite E1, E2. split; [lia|].
    assert (EV : forall k, Z.even (e * 2 ^ p + k) = Z.even k).
    { intros k. rewrite Z.even_add, Z.even_mul. replace (Z.even (2 ^ p)) with true by (symmetry; rewrite Z.even_pow by lia; reflexivity). rewrite orb_true_r. now destruct (Z.even k). }
    destruct C as [(R & B1 & B2)|(R & B1 & B2)]; [left|right]; rewrite R.
    - split; [reflexivity|]. split; [nia|]. intros Q. rewrite EV. apply B2. nia.
    - split; [lia|]. split; [nia|]. intros Q. rewrite <- Z.add_assoc, EV. apply B2. nia.
  Qed.
  Lemma mval_le m m' : 0 <= m -> m <= m' -> mval p m <= mval p m'.
  Proof. intros H1 H2. destruct (Z.eq_dec m m') as [->|]; [lia|]. apply Z.lt_le_incl, mval_lt; lia. Qed.
  Lemma mval_le_inv m m' : 0 <= m -> 0 <= m' -> mval p m <= mval p m' -> m <= m'.
  Proof. intros H1 H2 H. destruct (Z_le_dec m m'); [auto|]. pose proof (mval_lt p m' m ltac:(lia) ltac:(lia) ltac:(lia)). lia. Qed.
  Lemma mval_lt_inv m m' : 0 <= m -> 0 <= m' -> mval p m < mval p m' -> m < m'.
  Proof. intros H1 H2 H. destruct (Z_lt_dec m m'); [auto|]. pose proof (mval_le m' m ltac:(lia) ltac:(lia)). lia. Qed.

  Lemma rnd_nonneg n d : 0 <= n -> 0 < d -> 0 <= rnd n d.
  Proof. intros Hn Hd. destruct (rnd_spec n d Hn Hd) as (m0 & H0 & _ & [[-> _]|[-> _]]); lia. Qed.
  Lemma rnd_le n d m : 0 <= n -> 0 < d -> 0 <= m -> n <= mval p m * d -> rnd n d <= m.
  Proof.
    intros Hn Hd Hm H. destruct (rnd_spec n d Hn Hd) as (m0 & H0 & B & C).
    assert (m0 <= m) by (apply mval_le_inv; auto; nia). destruct C as [(-> & _)|(-> & C & T)]; [auto|].
    destruct (Z.eq_dec m m0) as [->|]; [|lia]. exfalso. pose proof (mval_lt p m0 (m0 + 1) ltac:(lia) ltac:(lia) ltac:(lia)). nia.
  Qed.
  Lemma rnd_ge n d m : 0 <= n -> 0 < d -> 0 <= m -> mval p m * d <= n -> m <= rnd n d.
  Proof.
    intros Hn Hd Hm H. destruct (rnd_spec n d Hn Hd) as (m0 & H0 & B & C).
    assert (m < m0 + 1) by (apply mval_lt_inv; auto; try lia; nia). destruct C as [(-> & _)|(-> & _)]; lia.
  Qed.
  Lemma rnd_exact n d m : 0 < d -> 0 <= m -> n = mval p m * d -> rnd n d = m.
  Proof.
    intros Hd Hm H. assert (0 <= n) by (pose proof (mval_le 0 m ltac:(lia) Hm) as Q; rewrite mval_0 in Q by lia; nia).
    apply Z.le_antisymm; [apply rnd_le|apply rnd_ge]; auto; lia.
  Qed.
  (** nearest, ties to even *)
  Lemma rnd_nearest n d m : 0 <= n -> 0 < d -> 0 <= m ->
    Z.abs (mval p (rnd n d) * d - n) <= Z.abs (mval p m * d - n) /\
    (Z.abs (mval p (rnd n d) * d - n) = Z.abs (mval p m * d - n) -> m <> rnd n d -> Z.even (rnd n d) = true).
  Proof.
    intros Hn Hd Hm. destruct (rnd_spec n d Hn Hd) as (m0 & H0 & B & C).
    assert (K : mval p m <= mval p m0 /\ m <= m0 \/ mval p (m0 + 1) <= mval p m /\ m0 + 1 <= m).
    { destruct (Z_le_dec m m0); [left|right]; (split; [apply mval_le; lia|lia]). }
    pose proof (mval_lt p m0 (m0 + 1) ltac:(lia) ltac:(lia) ltac:(lia)) as LT.
    assert (ST : mval p m = mval p m0 -> m = m0) by (intros Q; apply Z.le_antisymm; apply mval_le_inv; lia).
    assert (ST' : mval p m = mval p (m0 + 1) -> m = m0 + 1) by (intros Q; apply Z.le_antisymm; apply mval_le_inv; lia).
    destruct C as [(-> & C & T)|(-> & C & T)]; destruct K as [[K K2]|[K K2]].
    - split; [nia|]. intros Q N. exfalso. apply N, ST. nia.
    - split; [nia|]. intros Q N. apply T. nia.
    - split; [nia|]. intros Q N. apply T. nia.
    - split; [nia|]. intros Q N. exfalso. apply N, ST'. nia.
  Qed.
End Round.

Section W.
  Context {w : nat} (Hw : fp_width w).
  Lemma mant_pos : 0 < mant_bits w.
  Proof. destruct Hw as [->| ->]; cbn; lia. Qed.
  Lemma sign_pos : 0 < sign_weight w.
  Proof. apply pow_pos2. destruct Hw as [->| ->]; vm_compute; congruence. Qed.
  Lemma inf_bound : 0 < inf_magnitude w < sign_weight w.
  Proof. destruct Hw as [->| ->]; vm_compute; split; reflexivity. Qed.
  Lemma inf_even : Z.even (inf_magnitude w) = true.
  Proof. destruct Hw as [->| ->]; reflexivity. Qed.
  Lemma round_magnitude_rnd n d : round_magnitude w n d = Z.min (inf_magnitude w) (rnd (mant_bits w) n d).
  Proof. rewrite round_magnitude_eq. reflexivity. Qed.
  Lemma fone_units : fone w = one_units w.
  Proof. destruct Hw as [->| ->]; reflexivity. Qed.
  Lemma one_units_pos : 0 < one_units w.
  Proof. apply pow_pos2. destruct Hw as [->| ->]; vm_compute; congruence. Qed.

  (** fields of [with_sign] *)
  Lemma with_sign_uval neg m : 0 <= m < sign_weight w -> uval (with_sign w neg m) = (if neg then sign_weight w else 0) + m.
  Proof. intros H. unfold with_sign. apply mkw_small. rewrite (mod_sign Hw). destruct neg; lia. Qed.
  Lemma magnitude_with_sign neg m : 0 <= m < sign_weight w -> magnitude (with_sign w neg m) = m.
  Proof.
    intros H. unfold magnitude. rewrite with_sign_uval by exact H. destruct neg.
    - replace (sign_weight w + m) with (m + 1 * sign_weight w) by lia. rewrite Z.mod_add by lia. apply Z.mod_small. lia.
    - apply Z.mod_small. lia.
  Qed.
  Lemma negative_with_sign neg m : 0 <= m < sign_weight w -> negative (with_sign w neg m) = neg.
  Proof. intros H. unfold negative. rewrite with_sign_uval by exact H. destruct neg, (Z.leb_spec (sign_weight w) (sign_weight w + m)), (Z.leb_spec (sign_weight w) (0 + m)); auto; lia. Qed.
  Lemma with_sign_eta (x : word w) : with_sign w (negative x) (magnitude x) = x.
  Proof.
    apply word_ext. destruct (fields Hw x) as (_ & _ & R). rewrite with_sign_uval by exact R. unfold negative, magnitude. pose proof (uval_range x) as U. rewrite (mod_sign Hw) in U.
    destruct (Z.leb_spec (sign_weight w) (uval x)).
    - replace (uval x mod sign_weight w) with (uval x - sign_weight w) by (apply Z.mod_unique with (q := 1); lia). lia.
    - rewrite Z.mod_small; lia.
  Qed.
  Lemma finite_mag (x : word w) : is_Finite x = (magnitude x <? inf_magnitude w).
  Proof.
    unfold is_Finite, all_ones_exponent. destruct (fields Hw x) as (_ & -> & R). rewrite (expo_exp Hw). unfold inf_magnitude.
    pose proof (pow_pos2 _ (mant_nonneg Hw)) as P. pose proof (pow_pos2 _ (exp_nonneg Hw)) as Q. rewrite (sign_split Hw) in R.
    pose proof (Z.div_mod (magnitude x) (2 ^ mant_bits w) ltac:(lia)) as D. pose proof (Z.mod_pos_bound (magnitude x) (2 ^ mant_bits w) P) as B.
    destruct (Z.eqb_spec (magnitude x / 2 ^ mant_bits w) (2 ^ exp_bits w - 1)), (Z.ltb_spec (magnitude x) ((2 ^ exp_bits w - 1) * 2 ^ mant_bits w)); cbn [negb]; auto; nia.
  Qed.
  Lemma fvalue_mval (x : word w) : fvalue x = (if negative x then -1 else 1) * mval (mant_bits w) (magnitude x).
  Proof. unfold fvalue. rewrite (sign_bit_neg Hw), (fabs_mval Hw). destruct (negative x); lia. Qed.
  Lemma even_fraction (x : word w) : Z.even (fraction x) = Z.even (magnitude x).
  Proof.
    destruct (fields Hw x) as (-> & _ & _). pose proof mant_pos as MP. pose proof (pow_pos2 _ (mant_nonneg Hw)) as P.
    rewrite (Z.div_mod (magnitude x) (2 ^ mant_bits w)) at 2 by lia. rewrite Z.even_add, Z.even_mul.
    replace (Z.even (2 ^ mant_bits w)) with true by (symmetry; rewrite Z.even_pow by lia; reflexivity). now destruct (Z.even (magnitude x mod 2 ^ mant_bits w)).
  Qed.
  Lemma finite_with_sign neg m : 0 <= m < inf_magnitude w -> is_Finite (with_sign w neg m) = true.
  Proof. intros H. pose proof inf_bound. rewrite finite_mag, magnitude_with_sign by lia. apply Z.ltb_lt. lia. Qed.
  Lemma fvalue_with_sign neg m : 0 <= m < sign_weight w -> fvalue (with_sign w neg m) = (if neg then -1 else 1) * mval (mant_bits w) m.
  Proof. intros H. rewrite fvalue_mval, negative_with_sign, magnitude_with_sign by exact H. reflexivity. Qed.

  Lemma round_magnitude_bound n d : 0 <= n -> 0 < d -> 0 <= round_magnitude w n d <= inf_magnitude w.
  Proof. intros Hn Hd. rewrite round_magnitude_rnd. pose proof (rnd_nonneg _ mant_pos n d Hn Hd). pose proof inf_bound. lia. Qed.
  (** [fround] is correct rounding *)
  Lemma fround_nearest neg n d : 0 <= n -> 0 < d -> round_magnitude w n d < inf_magnitude w ->
    nearest (fround w neg n d) ((if neg then -1 else 1) * n) d.
  Proof.
    intros Hn Hd H. pose proof inf_bound as IB. pose proof (round_magnitude_bound n d Hn Hd) as RB. unfold fround, nearest.
    split; [apply finite_with_sign; lia|]. intros y Hy. rewrite fvalue_with_sign by lia. rewrite even_fraction, magnitude_with_sign by lia.
    rewrite round_magnitude_rnd in *. assert (ER : Z.min (inf_magnitude w) (rnd (mant_bits w) n d) = rnd (mant_bits w) n d) by lia. rewrite ER in *.
    destruct (fields Hw y) as (_ & _ & MY). rewrite finite_mag in Hy. apply Z.ltb_lt in Hy. rewrite fvalue_mval.
    pose proof (mval_le _ mant_pos 0 (magnitude y) ltac:(lia) ltac:(lia)) as Y0. rewrite mval_0 in Y0 by (pose proof mant_pos; lia).
    destruct (rnd_nearest _ mant_pos n d (magnitude y) Hn Hd ltac:(lia)) as [N1 N2].
    destruct (rnd_nearest _ mant_pos n d 0 Hn Hd ltac:(lia)) as [N3 N4]. rewrite mval_0 in N3, N4 by (pose proof mant_pos; lia).
    set (R := mval (mant_bits w) (rnd (mant_bits w) n d)) in *. set (Y := mval (mant_bits w) (magnitude y)) in *.
    assert (R0 : rnd (mant_bits w) n d = 0 -> R = 0) by (intros C; unfold R; rewrite C; apply mval_0; pose proof mant_pos; lia).
    destruct neg, (negative y); (split; [nia|]); intros Q1 Q2.
    - apply N2; [nia|]. intros C. unfold Y, R in Q2. rewrite C in Q2. lia.
    - apply N4; [nia|]. intros C. symmetry in C. apply R0 in C. nia.
    - apply N4; [nia|]. intros C. symmetry in C. apply R0 in C. nia.
    - apply N2; [nia|]. intros C. unfold Y, R in Q2. rewrite C in Q2. lia.
  Qed.
  Lemma fround_exact neg n d m : 0 < d -> 0 <= m < inf_magnitude w -> n = mval (mant_bits w) m * d -> fround w neg n d = with_sign w neg m.
  Proof.
    intros Hd Hm H. unfold fround. f_equal. rewrite round_magnitude_rnd, (rnd_exact _ mant_pos n d m) by (auto; lia). lia.
  Qed.
End W.
