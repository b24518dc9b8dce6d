(** Functions of the Scalar vectors: lemmas. *)
From Coq Require Import ZArith List Bool Lia.
From Verif.Spec Require Import Seq FloatSpec RoundSpec CastSpec MathSpec.
From Verif.Model Require Import Word Fp FpArith ScalarMath.
From Verif.Proof Require Import WordP FpP FpArithP FpIntP ConvertP MathP.
Import ListNotations.
Local Open Scope Z_scope.

Section W.
  Context {w : nat} (Hw : fp_width w).
  Let p := mant_bits w.
  Let u := unit_exp w.
  Let U := one_units w.
  Let H := 2 ^ (u - 1).
  Notation repr := (FpIntP.repr (w := w)).

  Lemma exps' : 0 < p /\ p + 100 < u /\ u + 2 * p + 10 < top_exp w /\ U = 2 * H /\ 0 < H.
  Proof.
    destruct (exps Hw) as (P & Q & _ & _ & T). fold p in P, Q, T. fold u in Q, T. unfold U, H. rewrite units_pow. fold u.
    repeat split; try lia.
    replace (2 ^ u) with (2 ^ (1 + (u - 1))) by (f_equal; lia). rewrite Z.pow_add_r by lia. reflexivity.
  Qed.

  (** ** rounding is monotone *)
  Lemma fround_ge neg n d r : 0 <= n -> 0 < d -> repr r -> r * d <= n -> r <= fabs_value (fround w neg n d).
  Proof.
    intros N D R L. destruct (repr_mag Hw r R) as (m & M & V). fold p in V. pose proof (round_magnitude_bound Hw n d N D) as B. pose proof (inf_bound Hw).
    unfold fround. rewrite (fabs_mval Hw), (magnitude_with_sign Hw) by lia. fold p. rewrite <- V. apply mval_le; [apply (mant_pos Hw)|lia|].
    rewrite round_magnitude_rnd. fold p. apply Z.min_glb; [lia|]. apply rnd_ge; try lia; apply (mant_pos Hw).
  Qed.
  Lemma fround_le neg n d r : 0 <= n -> 0 < d -> repr r -> n <= r * d -> fabs_value (fround w neg n d) <= r.
  Proof.
    intros N D R L. destruct (repr_mag Hw r R) as (m & M & V). fold p in V. pose proof (round_magnitude_bound Hw n d N D) as B. pose proof (inf_bound Hw).
    unfold fround. rewrite (fabs_mval Hw), (magnitude_with_sign Hw) by lia. fold p. rewrite <- V. apply mval_le; [apply (mant_pos Hw)|lia|].
    rewrite round_magnitude_rnd. fold p. eapply Z.le_trans; [apply Z.le_min_r|]. apply rnd_le; try lia; apply (mant_pos Hw).
  Qed.
  Lemma fround_finite neg n d r : 0 <= n -> 0 < d -> repr r -> n <= r * d -> is_Finite (fround w neg n d) = true /\ negative (fround w neg n d) = neg.
  Proof.
    intros N D R L. destruct (repr_mag Hw r R) as (m & M & V). fold p in V. pose proof (round_magnitude_bound Hw n d N D) as B. pose proof (inf_bound Hw).
    unfold fround. rewrite (negative_with_sign Hw) by lia. split; [|reflexivity]. apply (finite_with_sign Hw).
    split; [lia|]. rewrite round_magnitude_rnd. fold p. eapply Z.le_lt_trans; [apply Z.le_min_r|]. eapply Z.le_lt_trans; [|apply M].
    apply rnd_le; try lia; apply (mant_pos Hw).
  Qed.
  (** sums: between representable bounds *)
  Lemma fadd_between (a b : word w) lo hi : is_Finite a = true -> is_Finite b = true -> repr (Z.abs lo) -> repr (Z.abs hi) ->
    lo <= fvalue a + fvalue b <= hi -> is_Finite (fadd a b) = true /\ lo <= fvalue (fadd a b) <= hi.
  Proof.
    intros Fa Fb RL RH B. unfold fadd, nan2, fadd_num. rewrite !(finite_not_nan Hw), !(finite_not_inf Hw) by auto.
    set (s := fvalue a + fvalue b) in *. destruct (Z.eqb_spec s 0) as [E|E].
    - pose proof (inf_bound Hw). split; [apply (finite_with_sign Hw); lia|]. rewrite (fvalue_with_sign Hw), mval_0 by (try apply (mant_nonneg Hw); lia). lia.
    - assert (R1 : repr (Z.max (Z.abs lo) (Z.abs hi))) by (destruct (Z.max_spec (Z.abs lo) (Z.abs hi)) as [[_ ->]|[_ ->]]; auto).
      destruct (fround_finite (s <? 0) (Z.abs s) 1 _ ltac:(lia) ltac:(lia) R1 ltac:(lia)) as (F & N). split; [exact F|].
      rewrite (fvalue_abs Hw), N. pose proof (fabs_nonneg Hw (fround w (s <? 0) (Z.abs s) 1)) as NN.
      destruct (Z.ltb_spec s 0).
      + assert (fabs_value (fround w true (Z.abs s) 1) <= Z.abs lo) by (apply fround_le; auto; lia).
        destruct (Z_le_dec hi 0); [|lia]. assert (Z.abs hi <= fabs_value (fround w true (Z.abs s) 1)) by (apply fround_ge; auto; lia). lia.
      + assert (fabs_value (fround w false (Z.abs s) 1) <= Z.abs hi) by (apply fround_le; auto; lia).
        destruct (Z_le_dec 0 lo); [|lia]. assert (Z.abs lo <= fabs_value (fround w false (Z.abs s) 1)) by (apply fround_ge; auto; lia). lia.
  Qed.

  (** ** constants *)
  Lemma repr_pow2 k : 0 <= k -> k < top_exp w -> repr (2 ^ k).
  Proof.
    intros K T. exists 1, k. fold p. destruct exps' as (P & _). repeat split; try lia; [apply Z.pow_gt_1; lia|apply Z.pow_lt_mono_r; lia].
  Qed.
  Lemma half_ok : is_Finite (s_half w) = true /\ fvalue (s_half w) = H /\ negative (s_half w) = false.
  Proof.
    destruct exps' as (P & Q & T & E & HP). destruct (fround_repr Hw false U 2 H ltac:(lia)) as (F & V & N); [apply repr_pow2; lia|lia|].
    unfold s_half. fold U. split; [exact F|]. split; [|exact N]. rewrite (fvalue_abs Hw), N, V. lia.
  Qed.
  Lemma int_small z : Z.abs z <= 2 ^ (p + 1) -> is_Finite (of_int w z) = true /\ fvalue (of_int w z) = z * U /\ fabs_value (of_int w z) = Z.abs z * U /\ negative (of_int w z) = (z <? 0).
  Proof. intros B. destruct (of_int_exact Hw z (exact_small Hw z B)) as (A1 & A2 & A3 & A4). auto. Qed.
  Lemma int_repr z : Z.abs z <= 2 ^ (p + 1) -> repr (Z.abs (z * U)).
  Proof. intros B. destruct (int_small z B) as (F & V & _). rewrite <- V, <- (fabs_abs Hw). now apply (finite_repr Hw). Qed.
  Lemma floor_ok (x : word w) : is_Finite x = true -> is_Finite (s_floor x) = true /\ fvalue (s_floor x) = fvalue x / U * U /\ negative (s_floor x) = negative x.
  Proof. intros F. destruct (round_to_value Hw Down x F) as (A & B & C). rewrite round_int_eq in B. auto. Qed.

  (** the exponent of a value below 2^p *)
  Lemma split_value (x : word w) : is_Finite x = true -> Z.abs (fvalue x) < 2 ^ p * U ->
    exists k e, Z.abs (fvalue x) = k * 2 ^ e /\ 0 <= k < 2 ^ (p + 1) /\ 0 <= e <= u - 1 /\ (e = 0 \/ 2 ^ p <= k).
  Proof.
    intros F B. rewrite (finite_mag Hw) in F. apply Z.ltb_lt in F. destruct (fields Hw x) as (_ & _ & R).
    destruct (mval_inv p (magnitude x) (mant_pos Hw) ltac:(lia)) as (e & k & E & K & D & _ & V).
    rewrite <- (fabs_abs Hw) in *. rewrite (fabs_mval Hw) in *. fold p in B |- *. exists k, e. rewrite V in *. repeat split; try lia.
    destruct D as [->|D]; [destruct exps'; lia|]. destruct (Z_le_dec e (u - 1)) as [|N]; [auto|exfalso].
    assert (2 ^ u <= 2 ^ e) by (apply Z.pow_le_mono_r; destruct exps'; lia). unfold U in B. rewrite units_pow in B. fold u in B.
    pose proof (pow_pos2 p ltac:(destruct exps'; lia)). pose proof (pow_pos2 u ltac:(destruct exps'; lia)). nia.
  Qed.
  Lemma H_mul e : 0 <= e <= u - 1 -> exists h, H = h * 2 ^ e /\ 0 < h.
  Proof.
    intros E. exists (2 ^ (u - 1 - e)). split; [|apply pow_pos2; lia]. unfold H. rewrite <- Z.pow_add_r by lia. f_equal. lia.
  Qed.
  Lemma repr_mul k e : 0 <= k <= 2 ^ (p + 1) -> 0 <= e -> p + 2 + e <= top_exp w -> repr (k * 2 ^ e).
  Proof.
    intros K E T. destruct exps' as (P & _). destruct (Z.eq_dec k (2 ^ (p + 1))) as [->|N].
    - rewrite <- Z.pow_add_r by lia. apply repr_pow2; lia.
    - apply (repr_pow Hw); fold p; lia.
  Qed.
  (** ** the sum with one half, for absolute values below 2^p *)
  Definition below_half : Z := H - 2 ^ (u - 2 - p).
  Lemma add_half (x : word w) : is_Finite x = true -> Z.abs (fvalue x) < 2 ^ p * U -> fvalue x <> below_half ->
    is_Finite (fadd x (s_half w)) = true /\ fvalue (fadd x (s_half w)) / U = (fvalue x + H) / U.
  Proof.
    intros F B NB. destruct exps' as (P & Q & T & E & HP). destruct half_ok as (Fh & Vh & _).
    set (v := fvalue x) in *. set (s := v + H). set (z := s / U).
    assert (UP : 0 < U) by lia. assert (PP : 0 < 2 ^ p) by (apply pow_pos2; lia). assert (P2 : 2 ^ (p + 1) = 2 * 2 ^ p) by (rewrite Z.pow_add_r by lia; lia).
    assert (ZS : z * U <= s < (z + 1) * U) by (unfold z; pose proof (Z.mul_div_le s U UP); pose proof (Z.mul_succ_div_gt s U UP); lia).
    assert (ZB : Z.abs z <= 2 ^ p) by (unfold s in ZS; apply Z.abs_le; nia).
    assert (HI : exists hi, repr (Z.abs hi) /\ s <= hi < (z + 1) * U).
    { destruct (split_value x F B) as (k & e & V & K & E' & D). fold v in V.
      destruct (H_mul e E') as (h & HE & Hh). pose proof (pow_pos2 e ltac:(lia)) as PE.
      assert (BIG : 2 ^ (p + 1) < H) by (unfold H; apply Z.pow_lt_mono_r; lia).
      destruct (Z_le_dec H v) as [C|C].
      - destruct D as [->|D]; [rewrite Z.pow_0_r in V; lia|]. rewrite Z.abs_eq in V by lia.
        destruct (Z_le_dec (k + h) (2 ^ (p + 1))) as [C1|C1].
        + exists s. split; [|lia]. replace s with ((k + h) * 2 ^ e) by (unfold s; rewrite V, HE; ring). rewrite Z.abs_eq by nia. apply repr_mul; lia.
        + assert (EU : e <= u - 2).
          { destruct (Z_le_dec e (u - 2)); [auto|]. assert (e = u - 1) by lia. assert (X1 : 2 ^ e = H) by (unfold H; f_equal; lia).
            assert (h = 1) by (apply (Z.mul_reg_r _ _ (2 ^ e)); lia). lia. }
          assert (LB : u <= p + 1 + e).
          { destruct (Z_le_dec u (p + 1 + e)); [auto|]. assert (2 ^ (p + 1 + e) <= H) by (unfold H; apply Z.pow_le_mono_r; lia).
            rewrite Z.pow_add_r in H0 by lia. assert (k * 2 ^ e < 2 ^ (p + 1) * 2 ^ e) by (apply Z.mul_lt_mono_pos_r; lia). lia. }
          set (b := 2 ^ (p + 1 + e - u)). assert (BU : 2 ^ (p + 1) * 2 ^ e = b * U).
          { unfold b, U. rewrite units_pow. fold u. rewrite <- !Z.pow_add_r by lia. f_equal. lia. }
          assert (0 < b) by (apply pow_pos2; lia). assert (BB : b <= 2 ^ (p - 1)) by (apply Z.pow_le_mono_r; lia).
          assert (2 ^ p = 2 * 2 ^ (p - 1)) by (replace p with (1 + (p - 1)) at 1 by lia; rewrite Z.pow_add_r by lia; lia).
          exists (b * U + H). split.
          * rewrite Z.abs_eq by nia. replace (b * U + H) with ((2 * b + 1) * 2 ^ (u - 1)) by (rewrite E; unfold H; ring). apply repr_mul; lia.
          * assert (v < b * U) by (rewrite V, <- BU; apply Z.mul_lt_mono_pos_r; lia).
            assert (S1 : s = (k + h) * 2 ^ e) by (unfold s; rewrite V, HE; ring).
            assert (b * U <= s) by (rewrite S1, <- BU; apply Z.mul_le_mono_nonneg_r; lia).
            assert (b <= z) by (apply Z.div_le_lower_bound; lia). split; [unfold s; lia|].
            assert ((b + 1) * U <= (z + 1) * U) by (apply Z.mul_le_mono_nonneg_r; lia). lia.
      - destruct (Z_le_dec 0 v) as [C2|C2].
        + set (g := 2 ^ (u - 2 - p)). assert (GP : 0 < g) by (apply pow_pos2; lia).
          assert (HG : H = 2 ^ (p + 1) * g) by (unfold H, g; rewrite <- Z.pow_add_r by lia; f_equal; lia).
          assert (VG : v <= H - 2 * g).
          { rewrite Z.abs_eq in V by lia. destruct (Z_le_dec (u - 2 - p) e) as [L|L].
            - assert (2 ^ e = 2 ^ (e - (u - 2 - p)) * g) by (unfold g; rewrite <- Z.pow_add_r by lia; f_equal; lia).
              pose proof (pow_pos2 (e - (u - 2 - p)) ltac:(lia)). set (m := k * 2 ^ (e - (u - 2 - p))). assert (VM : v = m * g) by (unfold m; rewrite V, H0; ring).
              unfold below_half in NB. fold g in NB. assert (m < 2 ^ (p + 1)) by (apply (Z.mul_lt_mono_pos_r g); lia).
              assert (m <> 2 ^ (p + 1) - 1) by (intros QQ; apply NB; rewrite VM, QQ, HG; ring).
              assert (m * g <= (2 ^ (p + 1) - 2) * g) by (apply Z.mul_le_mono_nonneg_r; lia). lia.
            - assert (2 ^ e * 2 <= g) by (unfold g; replace (u - 2 - p) with ((u - 2 - p - 1) + 1) by lia; rewrite Z.pow_add_r by lia; apply Z.mul_le_mono_nonneg_r; [lia|]; apply Z.pow_le_mono_r; lia).
              assert (2 <= 2 ^ p) by (change 2 with (2 ^ 1) at 1; apply Z.pow_le_mono_r; lia).
              assert (k * 2 ^ e <= 2 ^ (p + 1) * 2 ^ e) by (apply Z.mul_le_mono_nonneg_r; lia).
              assert (2 ^ p * (2 ^ e * 2) <= 2 ^ p * g) by (apply Z.mul_le_mono_nonneg_l; lia).
              assert (2 * g <= 2 ^ p * g) by (apply Z.mul_le_mono_nonneg_r; lia). lia. }
          exists (U - 2 * g). assert (z = 0) by (symmetry; apply (Z.div_unique s U 0 s); unfold s; lia). split; [|unfold s; lia].
          rewrite Z.abs_eq by nia. replace (U - 2 * g) with ((2 ^ (p + 1) - 1) * 2 ^ (u - 2 - p + 1)); [apply repr_mul; lia|].
          rewrite (Z.pow_add_r 2 (u - 2 - p) 1) by lia. fold g. rewrite E, HG. change (2 ^ 1) with 2. ring.
        + destruct (Z_le_dec (- H) v) as [C3|C3].
          * exists H. assert (z = 0) by (symmetry; apply (Z.div_unique s U 0 s); unfold s; lia). rewrite Z.abs_eq by lia. split; [apply repr_pow2; lia|unfold s; lia].
          * exists s. split; [|lia]. rewrite Z.abs_neq in V by lia. replace (Z.abs s) with ((k - h) * 2 ^ e) by (unfold s; nia).
            apply repr_mul; [|lia|lia]. assert (h <= k) by nia. lia. }
    destruct HI as (hi & RH & HB).
    destruct (fadd_between x (s_half w) (z * U) hi F Fh (int_repr z ltac:(lia)) RH) as (FF & FV); [rewrite Vh; fold v s; lia|].
    split; [exact FF|]. symmetry. fold s z. apply (Z.div_unique _ U z (fvalue (fadd x (s_half w)) - z * U)); [left; lia|ring].
  Qed.

  Lemma zero_ok : is_Finite (w0 w) = true /\ fvalue (w0 w) = 0.
  Proof. destruct Hw as [->| ->]; vm_compute; auto. Qed.
  (** comparing a difference with one half *)
  Lemma sub_eq_half (x f : word w) r : is_Finite x = true -> is_Finite f = true -> r = fvalue x - fvalue f -> repr (Z.abs r) \/ U <= r <= 4 * U ->
    feq (fsub x f) (s_half w) = (r =? H).
  Proof.
    intros Fx Ff E R. destruct exps' as (P & Q & T & EU & HP). destruct half_ok as (Fh & Vh & _). rewrite (feq_ok Hw). unfold float_eq, ordered.
    assert (X : is_Finite (fsub x f) = true /\ (fvalue (fsub x f) =? H) = (r =? H)).
    { destruct R as [R|R].
      - rewrite E in R. destruct (fsub_repr Hw x f Fx Ff R) as (A & B). rewrite B, E. auto.
      - rewrite (fsub_fadd Hw) by (now apply (finite_not_nan Hw)). destruct (fneg_value Hw f) as (V & F' & _).
        destruct (fadd_between x (fneg f) (1 * U) (4 * U)) as (A & B); auto.
        + now rewrite F'.
        + apply int_repr. change (Z.abs 1) with 1. pose proof (pow_pos2 (p + 1)). lia.
        + apply int_repr. change (Z.abs 4) with (2 ^ 2). apply Z.pow_le_mono_r; lia.
        + rewrite V. lia.
        + split; [exact A|]. transitivity false; [apply Z.eqb_neq; lia|symmetry; apply Z.eqb_neq; lia]. }
    destruct X as (A & B). rewrite Vh, B. rewrite !(nan_ok Hw), !(finite_not_nan Hw) by auto. reflexivity.
  Qed.
  (** 2 * floor(t) *)
  Lemma twice_floor (t : word w) : is_Finite t = true -> repr (2 * Z.abs (fvalue t / U) * U) ->
    is_Finite (fmul (s_floor t) (of_int w 2)) = true /\ fvalue (fmul (s_floor t) (of_int w 2)) = 2 * (fvalue t / U) * U.
  Proof.
    intros F R. destruct exps' as (P & Q & T & EU & HP). destruct (floor_ok t F) as (A & B & C).
    destruct (int_small 2) as (F2 & V2 & A2 & N2); [change (Z.abs 2) with (2 ^ 1); apply Z.pow_le_mono_r; lia|].
    assert (AB : fabs_value (s_floor t) = Z.abs (fvalue t / U) * U) by (rewrite (fabs_abs Hw), B, Z.abs_mul, (Z.abs_eq U) by lia; reflexivity).
    destruct (fmul_repr Hw (s_floor t) (of_int w 2) _ A F2 R) as (X & Y & N).
    - rewrite AB, A2. fold U. change (Z.abs 2) with 2. ring.
    - split; [exact X|]. rewrite (fvalue_abs Hw), Y, N, N2. change (2 <? 0) with false. rewrite xorb_false_r.
      pose proof (fvalue_abs Hw (s_floor t)) as FV. rewrite B, AB in FV. destruct (negative (s_floor t)); lia.
  Qed.
  Lemma half_product (x : word w) c : is_Finite x = true -> fvalue x = 2 * c -> repr (Z.abs c) -> is_Finite (fmul x (s_half w)) = true /\ fvalue (fmul x (s_half w)) = c.
  Proof.
    intros F V R. destruct exps' as (P & Q & T & EU & HP). destruct half_ok as (Fh & Vh & Nh).
    destruct (fmul_repr Hw x (s_half w) _ F Fh R) as (X & Y & N).
    - rewrite !(fabs_abs Hw), Vh, V. fold U. rewrite EU, Z.abs_mul, (Z.abs_eq H) by lia. change (Z.abs 2) with 2. ring.
    - split; [exact X|]. rewrite (fvalue_abs Hw), Y, N, Nh, xorb_false_r. pose proof (fvalue_abs Hw x) as FV. rewrite (fabs_abs Hw), V in FV. destruct (negative x); lia.
  Qed.
  Lemma even_half_small (x : word w) : is_Finite x = true -> Z.abs (fvalue x) < 2 ^ p * U ->
    s_is_even_half x = (fvalue x mod (2 * U) =? H).
  Proof.
    intros F B. destruct exps' as (P & Q & T & E & HP). set (v := fvalue x) in *. assert (UP : 0 < U) by lia.
    assert (PP : 0 < 2 ^ p) by (apply pow_pos2; lia). assert (P2 : 2 ^ (p + 1) = 2 * 2 ^ p) by (rewrite Z.pow_add_r by lia; lia).
    assert (BIG : 2 ^ (p + 1) < H) by (unfold H; apply Z.pow_lt_mono_r; lia).
    pose proof (Z.mod_pos_bound v (2 * U) ltac:(lia)) as MB. pose proof (Z.div_mod v (2 * U) ltac:(lia)) as DM.
    destruct (split_value x F B) as (k & e & V & K & E' & D). fold v in V. unfold s_is_even_half. cbv zeta.
    assert (GR : forall g, Z.abs g <= 2 ^ p -> repr (2 * Z.abs g * U)).
    { intros g G. replace (2 * Z.abs g * U) with (Z.abs (2 * g * U)) by (rewrite !Z.abs_mul, (Z.abs_eq U) by lia; reflexivity). apply int_repr. rewrite Z.abs_mul. lia. }
    destruct (Z.eq_dec e 0) as [E0|E0].
    - rewrite E0, Z.pow_0_r, Z.mul_1_r in V. destruct half_ok as (Fh & Vh & Nh).
      assert (T1 : is_Finite (fmul x (s_half w)) = true /\ Z.abs (fvalue (fmul x (s_half w))) <= Z.abs v).
      { unfold fmul, nan2. rewrite !(finite_not_nan Hw), !(finite_not_inf Hw) by auto. cbn [orb]. fold U.
        assert (AV : Z.abs v = fabs_value x) by (unfold v; now rewrite (fabs_abs Hw)).
        assert (R : repr (fabs_value x)) by (now apply (finite_repr Hw)). rewrite AV.
        pose proof (fabs_nonneg Hw x) as NN. assert (AH : fabs_value (s_half w) = H) by (rewrite (fabs_abs Hw), Vh; lia). rewrite AH.
        destruct (fround_finite (xorb (negative x) (negative (s_half w))) (fabs_value x * H) U _ ltac:(nia) UP R ltac:(nia)) as (A1 & _).
        split; [exact A1|]. rewrite <- (fabs_abs Hw). apply fround_le; auto; nia. }
      destruct T1 as (Ft & Bt). set (t := fmul x (s_half w)) in *.
      assert (G : fvalue t / U = 0 \/ fvalue t / U = -1).
      { destruct (Z_le_dec 0 (fvalue t)); [left; apply Z.div_small; lia|right]. symmetry. apply (Z.div_unique _ U (-1) (fvalue t + U)); lia. }
      destruct (twice_floor t Ft) as (Ff & Vf); [apply GR; destruct G as [-> | ->]; lia|].
      rewrite (sub_eq_half x _ (v - 2 * (fvalue t / U) * U) F Ff);
        [|rewrite Vf; reflexivity|destruct G as [-> | ->]; [left; replace (v - 2 * 0 * U) with v by ring; apply (repr_small Hw); fold p; lia|right; lia]].
      destruct G as [-> | ->].
      + replace (v - 2 * 0 * U) with v by ring. transitivity false; [apply Z.eqb_neq; lia|symmetry; apply Z.eqb_neq].
        destruct (Z_le_dec 0 v); [rewrite Z.mod_small by lia; lia|]. intros C. assert (v / (2 * U) = -1) by (symmetry; apply (Z.div_unique v (2 * U) (-1) (v + 2 * U)); lia). lia.
      + transitivity false; [apply Z.eqb_neq; lia|symmetry; apply Z.eqb_neq].
        destruct (Z_le_dec 0 v); [rewrite Z.mod_small by lia; lia|]. intros C. assert (v / (2 * U) = -1) by (symmetry; apply (Z.div_unique v (2 * U) (-1) (v + 2 * U)); lia). lia.
    - pose proof (pow_pos2 (e - 1) ltac:(lia)) as PE1. assert (PE : 2 ^ e = 2 * 2 ^ (e - 1)) by (replace e with (1 + (e - 1)) at 1 by lia; rewrite Z.pow_add_r by lia; lia).
      set (c := Z.sgn v * (k * 2 ^ (e - 1))). assert (VC : v = 2 * c) by (unfold c; destruct (Z.sgn_spec v) as [[? ->]|[[? ->]|[? ->]]]; nia).
      assert (AC : Z.abs c = k * 2 ^ (e - 1)) by nia.
      destruct (half_product x c F VC) as (Ft & Vt); [rewrite AC; apply repr_mul; lia|]. set (t := fmul x (s_half w)) in *.
      assert (GD : c / U = v / (2 * U)) by (rewrite VC; now rewrite Z.div_mul_cancel_l by lia).
      set (g := v / (2 * U)) in *. assert (GB : Z.abs g <= 2 ^ p) by (apply Z.abs_le; nia).
      destruct (twice_floor t Ft) as (Ff & Vf); [rewrite Vt, GD; apply GR; lia|]. rewrite Vt, GD in Vf.
      set (r := v mod (2 * U)) in *. apply sub_eq_half; auto; [rewrite Vf; fold v; lia|].
      destruct (H_mul e E') as (h & HE & Hh). assert (MU : 2 * U = 4 * h * 2 ^ e) by (rewrite E, HE; ring).
      assert (RM : exists m, r = m * 2 ^ e) by (destruct (Z_le_dec 0 v); [exists (k - g * (4 * h))|exists (- k - g * (4 * h))]; nia).
      destruct RM as (m & RM). rewrite Z.abs_eq by lia. destruct (Z_le_dec r (Z.abs v)) as [C|C].
      + left. rewrite RM. rewrite RM, V in C. assert (0 <= m * 2 ^ e) by lia. apply repr_mul; [|lia|lia].
        assert (m <= k) by (apply (Z.mul_le_mono_pos_r _ _ (2 ^ e)); lia). assert (0 <= m) by (apply (Z.mul_le_mono_pos_r _ _ (2 ^ e)); lia). lia.
      + right. assert (v < 0) by (destruct (Z_le_dec 0 v); [|lia]; assert (0 <= g) by (apply Z.div_pos; lia); nia).
        assert (g < 0) by nia. assert (g = -1) by nia. lia.
  Qed.

  (** ** absolute values from 2^p: integers *)
  Lemma rne_near n d k r : 0 < d -> n = k * d + r -> 2 * Z.abs r <= d ->
    rne n d = if 2 * r =? d then (if Z.even k then k else k + 1) else if 2 * r =? - d then (if Z.even k then k else k - 1) else k.
  Proof.
    intros D E B. destruct (Z_le_dec 0 r) as [C|C].
    - assert (Q1 : n / d = k) by (symmetry; apply (Z.div_unique n d k r); lia). assert (Q2 : n mod d = r) by (symmetry; apply (Z.mod_unique n d k r); lia).
      rewrite rne_eq, Q1, Q2. destruct (Z.eqb_spec (2 * r) d) as [X|X].
      + destruct (Z.ltb_spec (2 * r) d); [lia|]. destruct (Z.ltb_spec d (2 * r)); [lia|]. reflexivity.
      + destruct (Z.ltb_spec (2 * r) d); [|lia]. destruct (Z.eqb_spec (2 * r) (- d)); [lia|]. reflexivity.
    - assert (Q1 : n / d = k - 1) by (symmetry; apply (Z.div_unique n d (k - 1) (r + d)); lia).
      assert (Q2 : n mod d = r + d) by (symmetry; apply (Z.mod_unique n d (k - 1) (r + d)); lia).
      rewrite rne_eq, Q1, Q2. destruct (Z.eqb_spec (2 * r) d) as [X|X]; [lia|]. destruct (Z.eqb_spec (2 * r) (- d)) as [Y|Y].
      + destruct (Z.ltb_spec (2 * (r + d)) d); [lia|]. destruct (Z.ltb_spec d (2 * (r + d))); [lia|].
        rewrite Z.even_sub. change (Z.even 1) with false. destruct (Z.even k); cbn [eqb]; lia.
      + destruct (Z.ltb_spec (2 * (r + d)) d); [lia|]. destruct (Z.ltb_spec d (2 * (r + d))); lia.
  Qed.
  (** the rounded value of n in [2^(p+e), 2^(p+1+e)) *)
  Lemma fround_binade neg n e V : 0 <= e -> 2 ^ (p + e) <= n < 2 ^ (p + 1 + e) -> V = rne n (2 ^ e) * 2 ^ e -> repr V ->
    is_Finite (fround w neg n 1) = true /\ fabs_value (fround w neg n 1) = V /\ negative (fround w neg n 1) = neg.
  Proof.
    intros E B EV R. destruct exps' as (P & _). pose proof (inf_bound Hw) as IB. pose proof (pow_pos2 e E) as PE. pose proof (pow_pos2 p ltac:(lia)) as PP.
    assert (L : Z.log2 n = p + e) by (apply Z.log2_unique; [lia|]; replace (Z.succ (p + e)) with (p + 1 + e) by lia; lia).
    assert (RN : rnd p n 1 = e * 2 ^ p + rne n (2 ^ e)).
    { unfold rnd. rewrite Z.div_1_r, L. replace (Z.max 0 (p + e - p)) with e by lia. now rewrite Z.mul_1_l. }
    destruct (rne_cases n (2 ^ e) PE) as (QB & C). set (q := n / 2 ^ e) in *.
    assert (Q : 2 ^ p <= q < 2 ^ (p + 1)).
    { rewrite Z.pow_add_r in B by lia. replace (p + 1 + e) with ((p + 1) + e) in B by lia. rewrite (Z.pow_add_r 2 (p + 1) e) in B by lia.
      split; [apply Z.div_le_lower_bound; lia|apply Z.div_lt_upper_bound; lia]. }
    assert (MV : mval p (e * 2 ^ p + rne n (2 ^ e)) = V) by (rewrite EV; apply mval_ek; try lia; destruct C as [(-> & _)|(-> & _)]; lia).
    destruct (repr_mag Hw V R) as (m & M & VM). fold p in VM.
    assert (ME : m = rnd p n 1).
    { rewrite RN. assert (0 <= e * 2 ^ p + rne n (2 ^ e)) by (assert (0 <= e * 2 ^ p) by (apply Z.mul_nonneg_nonneg; lia); destruct C as [(-> & _)|(-> & _)]; lia).
      apply Z.le_antisymm; apply (mval_le_inv p P); try lia. }
    assert (RM : round_magnitude w n 1 = m) by (rewrite round_magnitude_rnd; fold p; rewrite <- ME; lia).
    unfold fround. rewrite RM. split; [now apply (finite_with_sign Hw)|]. rewrite (fabs_mval Hw), (magnitude_with_sign Hw), (negative_with_sign Hw) by lia. auto.
  Qed.
  Lemma split_large (x : word w) : is_Finite x = true -> 2 ^ p * U <= Z.abs (fvalue x) ->
    exists k e, Z.abs (fvalue x) = k * 2 ^ e /\ 2 ^ p <= k < 2 ^ (p + 1) /\ u <= e /\ repr (k * 2 ^ e).
  Proof.
    intros F B. pose proof F as F0. rewrite (finite_mag Hw) in F. apply Z.ltb_lt in F. destruct (fields Hw x) as (_ & _ & R). destruct exps' as (P & Q & _).
    destruct (mval_inv p (magnitude x) (mant_pos Hw) ltac:(lia)) as (e & k & E & K & D & _ & V).
    assert (AV : Z.abs (fvalue x) = k * 2 ^ e) by (rewrite <- (fabs_abs Hw), (fabs_mval Hw); exact V).
    exists k, e. rewrite AV in B. unfold U in B. rewrite units_pow in B. fold u in B.
    assert (EU : u <= e).
    { destruct (Z_le_dec u e); [auto|]. exfalso. assert (2 ^ (p + 1) * 2 ^ e <= 2 ^ p * 2 ^ u) by (rewrite <- !Z.pow_add_r by lia; apply Z.pow_le_mono_r; lia).
      assert (k * 2 ^ e < 2 ^ (p + 1) * 2 ^ e) by (apply Z.mul_lt_mono_pos_r; [apply pow_pos2; lia|lia]). lia. }
    repeat split; try lia. rewrite <- AV, <- (fabs_abs Hw). now apply (finite_repr Hw).
  Qed.

  (** the sum with one half: the value of x, except that an odd integer in [2^p, 2^(p+1)) grows by one *)
  Definition odd_case (v : Z) : bool := (2 ^ p * U <=? Z.abs v) && (Z.abs v <? 2 ^ (p + 1) * U) && Z.odd (v / U).
  Lemma pow_U e : u <= e -> exists c, 2 ^ e = c * U /\ 0 < c /\ (e = u /\ c = 1 \/ u < e /\ Z.even c = true).
  Proof.
    intros E. destruct exps' as (P & Q & _). exists (2 ^ (e - u)). split; [unfold U; rewrite units_pow; fold u; rewrite <- Z.pow_add_r by lia; f_equal; lia|].
    split; [apply pow_pos2; lia|]. destruct (Z.eq_dec e u) as [->|N]; [left; now rewrite Z.sub_diag|right]. split; [lia|]. rewrite Z.even_pow by lia. reflexivity.
  Qed.
  Lemma add_half_large (x : word w) : is_Finite x = true -> 2 ^ p * U <= Z.abs (fvalue x) ->
    is_Finite (fadd x (s_half w)) = true /\ fvalue (fadd x (s_half w)) / U * U = fvalue x + (if odd_case (fvalue x) then U else 0).
  Proof.
    intros F B. destruct exps' as (P & Q & T & E & HP). destruct half_ok as (Fh & Vh & Nh). destruct (split_large x F B) as (k & e & V & K & EU & R).
    destruct (pow_U e EU) as (c & CU & CP & CC). pose proof (pow_pos2 e ltac:(lia)) as PE. assert (PP : 0 < 2 ^ p) by (apply pow_pos2; lia).
    assert (P2 : 2 ^ (p + 1) = 2 * 2 ^ p) by (rewrite Z.pow_add_r by lia; lia).
    assert (P3 : 2 ^ (p + 1 + e) = 2 ^ (p + 1) * 2 ^ e) by (rewrite Z.pow_add_r by lia; reflexivity).
    assert (P4 : 2 ^ (p + e) = 2 ^ p * 2 ^ e) by (rewrite Z.pow_add_r by lia; reflexivity).
    set (v := fvalue x) in *. assert (UE : U <= 2 ^ e) by (rewrite CU; assert (1 * U <= c * U) by (apply Z.mul_le_mono_nonneg_r; lia); lia).
    assert (K1 : 2 ^ p * 2 ^ e <= k * 2 ^ e) by (apply Z.mul_le_mono_nonneg_r; lia). assert (K2 : (k + 1) * 2 ^ e <= 2 ^ (p + 1) * 2 ^ e) by (apply Z.mul_le_mono_nonneg_r; lia).
    assert (EV : e <> u -> odd_case v = false).
    { intros N. unfold odd_case. destruct CC as [[C _]|[_ C]]; [lia|]. assert (exists z, v = z * (c * U)) as (z & ->).
      { rewrite <- CU. destruct (Z_le_dec 0 v); [exists k|exists (- k)]; lia. }
      rewrite Z.mul_assoc, Z.div_mul by lia. rewrite Z.odd_mul. rewrite <- (Z.negb_even c), C. cbn [negb]. now rewrite andb_false_r, andb_false_r. }
    assert (OD : e = u -> odd_case v = Z.odd k).
    { intros ->. assert (c = 1) as -> by (destruct CC as [[_ C]|[C _]]; lia). rewrite Z.mul_1_l in CU. unfold odd_case. rewrite CU in *.
      assert (k * U < 2 ^ (p + 1) * U) by lia. rewrite (proj2 (Z.leb_le _ _) B), V, (proj2 (Z.ltb_lt _ _)) by lia. cbn [andb].
      destruct (Z_le_dec 0 v); [replace v with (k * U) by lia|replace v with (- k * U) by lia]; rewrite Z.div_mul by lia; [reflexivity|apply Z.odd_opp]. }
    unfold fadd, nan2, fadd_num. rewrite !(finite_not_nan Hw), !(finite_not_inf Hw) by auto. rewrite Vh. fold v. cbv zeta.
    assert (UB : 1 * U <= 2 ^ p * U) by (apply Z.mul_le_mono_nonneg_r; lia).
    destruct (Z.eqb_spec (v + H) 0) as [X|X]; [lia|].
    assert (DONE : forall y : word w, is_Finite y = true -> fvalue y = v + (if odd_case v then U else 0) -> is_Finite y = true /\ fvalue y / U * U = v + (if odd_case v then U else 0)).
    { intros y Fy Vy. split; [exact Fy|]. rewrite Vy. assert (exists z, v + (if odd_case v then U else 0) = z * U) as (z & ->).
      { destruct (Z_le_dec 0 v); [exists (k * c + (if odd_case v then 1 else 0))|exists (- k * c + (if odd_case v then 1 else 0))]; rewrite Z.mul_add_distr_r; rewrite <- Z.mul_assoc, <- CU; destruct (odd_case v); lia. }
      rewrite Z.div_mul by lia. reflexivity. }
    destruct (Z.ltb_spec (v + H) 0) as [S|S].
    - (* negative *)
      replace (Z.abs (v + H)) with (k * 2 ^ e - H) by lia.
      destruct (Z.eq_dec k (2 ^ p)) as [KP|KP].
      + (* the lower end of a binade *)
        assert (PE1 : 2 ^ e = 2 * 2 ^ (e - 1)) by (replace e with (1 + (e - 1)) at 1 by lia; rewrite Z.pow_add_r by lia; lia).
        assert (HE : H <= 2 ^ (e - 1)) by lia. pose proof (pow_pos2 (e - 1) ltac:(lia)).
        assert (B1 : 2 ^ (p + (e - 1)) <= k * 2 ^ e - H < 2 ^ (p + 1 + (e - 1))).
        { rewrite !(Z.pow_add_r 2 _ (e - 1)) by lia. rewrite P2, KP, PE1. assert (1 * 2 ^ (e - 1) <= 2 ^ p * 2 ^ (e - 1)) by (apply Z.mul_le_mono_nonneg_r; lia). lia. }
        assert (KK : k * 2 ^ e = 2 ^ (p + 1) * 2 ^ (e - 1)) by (rewrite KP, PE1, P2; ring).
        assert (EVN : Z.even (2 ^ (p + 1)) = true) by (rewrite P2, Z.even_mul; reflexivity).
        destruct (Z.eq_dec e u) as [EE|NE].
        * assert (X1 : 2 ^ (e - 1) = H) by (unfold H; f_equal; lia).
          assert (RN : rne (k * 2 ^ e - H) (2 ^ (e - 1)) = 2 ^ (p + 1) - 1).
          { replace (k * 2 ^ e - H) with ((2 ^ (p + 1) - 1) * 2 ^ (e - 1)) by (rewrite KK, X1; ring). apply rne_exact; lia. }
          destruct (fround_binade true _ (e - 1) _ ltac:(lia) B1 eq_refl) as (A1 & A2 & A3); [rewrite RN; apply repr_mul; lia|].
          rewrite RN, X1 in A2. split; [exact A1|]. rewrite (fvalue_abs Hw), A2, A3.
          rewrite (OD EE). rewrite <- Z.negb_even. assert (Z.even k = true) as -> by (rewrite KP; rewrite Z.even_pow by lia; reflexivity). cbn [negb].
          assert (VV : v = - (2 ^ (p + 1) * H)) by lia. rewrite Z.add_0_r. rewrite VV.
          assert (DV : -1 * ((2 ^ (p + 1) - 1) * H) / U = - 2 ^ p) by (symmetry; apply (Z.div_unique _ U (- 2 ^ p) H); [lia|rewrite P2, E; ring]). rewrite DV, E, P2. ring.
        * assert (HE2 : 2 * H <= 2 ^ (e - 1)) by (rewrite <- E; unfold U; rewrite units_pow; fold u; apply Z.pow_le_mono_r; lia).
          assert (RN : rne (k * 2 ^ e - H) (2 ^ (e - 1)) = 2 ^ (p + 1)).
          { rewrite (rne_near _ _ (2 ^ (p + 1)) (- H)) by lia. rewrite EVN. destruct (2 * - H =? 2 ^ (e - 1)), (2 * - H =? - 2 ^ (e - 1)); reflexivity. }
          destruct (fround_binade true _ (e - 1) _ ltac:(lia) B1 eq_refl) as (A1 & A2 & A3); [rewrite RN, <- KK; exact R|].
          rewrite RN, <- KK in A2. apply DONE; [exact A1|]. rewrite (fvalue_abs Hw), A2, A3, EV by lia. lia.
      + assert (B1 : 2 ^ (p + e) <= k * 2 ^ e - H < 2 ^ (p + 1 + e)).
        { rewrite P3, P4. assert ((2 ^ p + 1) * 2 ^ e <= k * 2 ^ e) by (apply Z.mul_le_mono_nonneg_r; lia). lia. }
        assert (RN : rne (k * 2 ^ e - H) (2 ^ e) = if odd_case v then k - 1 else k).
        { rewrite (rne_near _ _ k (- H)) by lia. destruct (Z.eqb_spec (2 * - H) (2 ^ e)); [lia|].
          destruct (Z.eq_dec e u) as [EE|NE].
          - assert (2 ^ e = U) by (unfold U; rewrite units_pow; fold u; now rewrite EE). rewrite (OD EE), <- Z.negb_even. destruct (Z.eqb_spec (2 * - H) (- 2 ^ e)); [|lia]. destruct (Z.even k); reflexivity.
          - rewrite (EV NE). assert (2 ^ u < 2 ^ e) by (apply Z.pow_lt_mono_r; lia). unfold U in E. rewrite units_pow in E. fold u in E. destruct (Z.eqb_spec (2 * - H) (- 2 ^ e)); [lia|reflexivity]. }
        destruct (fround_binade true _ e _ ltac:(lia) B1 eq_refl) as (A1 & A2 & A3).
        { rewrite RN. destruct (odd_case v) eqn:O; [|exact R]. destruct (Z.eq_dec e u) as [->|NE]; [|discriminate (EV NE)]. apply repr_mul; lia. }
        rewrite RN in A2. apply DONE; [exact A1|]. rewrite (fvalue_abs Hw), A2, A3.
        destruct (odd_case v) eqn:O; [|lia]. destruct (Z.eq_dec e u) as [EE|NE]; [|discriminate (EV NE)].
        assert (2 ^ e = U) by (unfold U; rewrite units_pow; fold u; now rewrite EE). lia.
    - replace (Z.abs (v + H)) with (k * 2 ^ e + H) by lia.
      assert (B1 : 2 ^ (p + e) <= k * 2 ^ e + H < 2 ^ (p + 1 + e)) by (rewrite P3, P4; lia).
      assert (RN : rne (k * 2 ^ e + H) (2 ^ e) = if odd_case v then k + 1 else k).
      { rewrite (rne_near _ _ k H) by lia. destruct (Z.eqb_spec (2 * H) (- 2 ^ e)); [lia|].
        destruct (Z.eq_dec e u) as [EE|NE].
        - assert (2 ^ e = U) by (unfold U; rewrite units_pow; fold u; now rewrite EE). rewrite (OD EE), <- Z.negb_even. destruct (Z.eqb_spec (2 * H) (2 ^ e)); [|lia]. destruct (Z.even k); reflexivity.
        - rewrite (EV NE). assert (2 ^ u < 2 ^ e) by (apply Z.pow_lt_mono_r; lia). unfold U in E. rewrite units_pow in E. fold u in E. destruct (Z.eqb_spec (2 * H) (2 ^ e)); [lia|reflexivity]. }
      destruct (fround_binade false _ e _ ltac:(lia) B1 eq_refl) as (A1 & A2 & A3).
      { rewrite RN. destruct (odd_case v) eqn:O; [|exact R]. destruct (Z.eq_dec e u) as [->|NE]; [|discriminate (EV NE)]. apply repr_mul; lia. }
      rewrite RN in A2. apply DONE; [exact A1|]. rewrite (fvalue_abs Hw), A2, A3.
      destruct (odd_case v) eqn:O; [|lia]. destruct (Z.eq_dec e u) as [EE|NE]; [|discriminate (EV NE)].
      assert (2 ^ e = U) by (unfold U; rewrite units_pow; fold u; now rewrite EE). lia.
  Qed.

  Lemma even_half_large (x : word w) : is_Finite x = true -> 2 ^ p * U <= Z.abs (fvalue x) -> s_is_even_half x = false.
  Proof.
    intros F B. destruct exps' as (P & Q & T & E & HP). destruct (split_large x F B) as (k & e & V & K & EU & R).
    set (v := fvalue x) in *. destruct (pow_U e EU) as (c & CU & CP & CC). pose proof (pow_pos2 (e - 1) ltac:(lia)) as PE1.
    assert (PE : 2 ^ e = 2 * 2 ^ (e - 1)) by (replace e with (1 + (e - 1)) at 1 by lia; rewrite Z.pow_add_r by lia; lia).
    assert (KB : k * 2 ^ (e - 1) <= k * 2 ^ e) by (apply Z.mul_le_mono_nonneg_l; lia).
    assert (R1 : repr (k * 2 ^ (e - 1))) by (destruct R as (_ & _ & _ & _ & _ & RT); exists k, (e - 1); fold p; repeat split; lia).
    set (h := Z.sgn v * (k * 2 ^ (e - 1))). assert (KN : 0 <= k * 2 ^ (e - 1)) by (apply Z.mul_nonneg_nonneg; lia).
    assert (KE : k * 2 ^ e = 2 * (k * 2 ^ (e - 1))) by (rewrite PE; ring).
    assert (VH : v = 2 * h) by (unfold h; destruct (Z.sgn_spec v) as [[? ->]|[[? ->]|[? ->]]]; lia).
    assert (AH : Z.abs h = k * 2 ^ (e - 1)) by lia.
    destruct (half_product x h F VH) as (Ft & Vt); [rewrite AH; exact R1|]. unfold s_is_even_half. cbv zeta. set (t := fmul x (s_half w)) in *.
    destruct CC as [[EE C1]|[EE C1]].
    - rewrite C1, Z.mul_1_l in CU. set (g := h / U). assert (GB : g * U <= h < g * U + U) by (unfold g; pose proof (Z.mul_div_le h U ltac:(lia)); pose proof (Z.mul_succ_div_gt h U ltac:(lia)); lia).
      assert (KU : exists z, v = z * U /\ Z.abs z = k) by (rewrite <- CU; destruct (Z_le_dec 0 v); [exists k|exists (- k)]; lia). destruct KU as (z & ZU & AZ).
      assert (G2 : 2 * g <= z <= 2 * g + 1) by (split; [|apply Z.lt_succ_r]; apply (Z.mul_le_mono_pos_r _ _ U) || apply (Z.mul_lt_mono_pos_r U); lia).
      assert (RG : repr (2 * Z.abs (fvalue t / U) * U)).
      { rewrite Vt. fold g. replace (2 * Z.abs g * U) with (Z.abs (2 * g * U)) by (rewrite !Z.abs_mul, (Z.abs_eq U) by lia; reflexivity). apply int_repr. lia. }
      destruct (twice_floor t Ft RG) as (Ff & Vf). rewrite Vt in Vf. fold g in Vf.
      rewrite (sub_eq_half x _ ((z - 2 * g) * U) F Ff); [|rewrite Vf; fold v; rewrite ZU; ring|left; apply int_repr].
      + apply Z.eqb_neq. assert (C : z - 2 * g = 0 \/ z - 2 * g = 1) by lia. destruct C as [-> | ->]; lia.
      + pose proof (pow_pos2 (p + 1) ltac:(lia)). lia.
    - destruct (Z.eq_dec (v - 2 * (h / U) * U) 0) as [Z0|Z0].
      + assert (RG : repr (2 * Z.abs (fvalue t / U) * U)).
        { rewrite Vt. replace (2 * Z.abs (h / U) * U) with (Z.abs (2 * (h / U) * U)) by (rewrite !Z.abs_mul, (Z.abs_eq U) by lia; reflexivity).
          replace (2 * (h / U) * U) with v by lia. rewrite V. exact R. }
        destruct (twice_floor t Ft RG) as (Ff & Vf). rewrite Vt in Vf.
        rewrite (sub_eq_half x _ 0 F Ff); [apply Z.eqb_neq; lia|rewrite Vf; fold v; lia|left; change (Z.abs 0) with 0; apply (repr_small Hw); fold p; pose proof (pow_pos2 (p + 1) ltac:(lia)); lia].
      + exfalso. apply Z0. apply Z.even_spec in C1. destruct C1 as (c' & C1). assert (E1 : 2 ^ (e - 1) = c' * U) by (rewrite CU, C1 in PE; lia).
        assert (exists z, h = z * U) as (z & HZ) by (destruct (Z_le_dec 0 h); [exists (k * c')|exists (- k * c')]; rewrite <- Z.mul_assoc, <- E1; lia).
        rewrite HZ, Z.div_mul by lia. lia.
  Qed.

  (** ** round *)
  Lemma fsub_zero (y : word w) : is_Finite y = true -> is_Finite (fsub y (w0 w)) = true /\ fvalue (fsub y (w0 w)) = fvalue y.
  Proof.
    intros F. destruct zero_ok as (F0 & V0). destruct (fsub_repr Hw y (w0 w) F F0) as (A & B).
    - rewrite V0, Z.sub_0_r, <- (fabs_abs Hw). now apply (finite_repr Hw).
    - split; [exact A|]. rewrite B, V0. lia.
  Qed.
  Lemma round_large (x : word w) : is_Finite x = true -> 2 ^ p * U <= Z.abs (fvalue x) ->
    is_Finite (s_round x) = true /\ fvalue (s_round x) = fvalue x + (if odd_case (fvalue x) then U else 0).
  Proof.
    intros F B. unfold s_round. rewrite (even_half_large x F B). destruct (add_half_large x F B) as (A1 & A2).
    destruct (floor_ok _ A1) as (B1 & B2 & _). destruct (fsub_zero _ B1) as (C1 & C2). split; [exact C1|]. rewrite C2, B2. exact A2.
  Qed.
  Lemma round_small (x : word w) : is_Finite x = true -> Z.abs (fvalue x) < 2 ^ p * U -> fvalue x <> below_half ->
    is_Finite (s_round x) = true /\ exists z, is_round (fvalue x) U z /\ fvalue (s_round x) = z * U.
  Proof.
    intros F B NB. destruct exps' as (P & Q & T & E & HP). unfold s_round. rewrite (even_half_small x F B). destruct (add_half x F B NB) as (A1 & A2).
    destruct (floor_ok _ A1) as (B1 & B2 & _). rewrite A2 in B2. set (v := fvalue x) in *. set (q := (v + H) / U) in *.
    assert (QB : q * U <= v + H < q * U + U) by (unfold q; pose proof (Z.mul_div_le (v + H) U ltac:(lia)); pose proof (Z.mul_succ_div_gt (v + H) U ltac:(lia)); lia).
    assert (PP : 2 <= 2 ^ p) by (change 2 with (2 ^ 1) at 1; apply Z.pow_le_mono_r; lia). assert (P2 : 2 ^ (p + 1) = 2 * 2 ^ p) by (rewrite Z.pow_add_r by lia; lia).
    assert (QA : Z.abs q <= 2 ^ p).
    { apply Z.abs_le. split; [apply Z.lt_succ_r|apply Z.lt_succ_r]; apply (Z.mul_lt_mono_pos_r U); lia. }
    pose proof (Z.mod_pos_bound v (2 * U) ltac:(lia)) as MB. pose proof (Z.div_mod v (2 * U) ltac:(lia)) as DM. set (j := v / (2 * U)) in *.
    destruct (Z.eqb_spec (v mod (2 * U)) H) as [C|C].
    - rewrite C in DM. assert (QJ : q = 2 * j + 1) by (symmetry; apply (Z.div_unique (v + H) U (2 * j + 1) 0); lia).
      destruct (int_small 1 ltac:(lia)) as (F1 & V1 & _).
      destruct (fsub_repr Hw (s_floor (fadd x (s_half w))) (of_int w 1) B1 F1) as (C1 & C2).
      + rewrite B2, V1. replace (q * U - 1 * U) with ((q - 1) * U) by ring. apply int_repr. lia.
      + split; [exact C1|]. exists (q - 1). split; [|rewrite C2, B2, V1; ring]. right. rewrite QJ. split; [|exists j; lia].
        replace (v - (2 * j + 1 - 1) * U) with H by lia. lia.
    - destruct (fsub_zero _ B1) as (C1 & C2). split; [exact C1|]. exists q. split; [|rewrite C2; exact B2].
      destruct (Z.eq_dec (q * U) (v + H)) as [TIE|NT]; [|left; lia]. right. split; [lia|].
      destruct (Z.Even_or_Odd q) as [|[m O]]; [auto|]. exfalso. apply C. symmetry. apply (Z.mod_unique v (2 * U) m H); [lia|]. rewrite O in TIE. lia.
  Qed.
  Lemma round_nan (x : word w) : is_NaN x = true -> is_NaN (s_round x) = true.
  Proof.
    intros N. unfold s_round. apply (NaN_left Hw fsub); [auto|]. unfold s_floor. destruct (round_to_ok Hw Down (fadd x (s_half w))) as ((_ & X & _) & _). apply X.
    apply (NaN_left Hw fadd); auto.
  Qed.
End W.

Lemma round_inf {w} (Hw : fp_width w) (x : word w) : is_Inf x = true -> s_round x = x.
Proof.
  intros I. assert (C : x = pos_inf w \/ x = with_sign w true (inf_magnitude w)).
  { rewrite (inf_ok Hw) in I. unfold is_inf in I. apply Z.eqb_eq in I. rewrite <- (with_sign_eta Hw x), I. destruct (negative x); [now right|left].
    unfold pos_inf, with_sign. f_equal. }
  destruct C as [-> | ->]; destruct Hw as [-> | ->]; apply word_ext; vm_compute; reflexivity.
Qed.
