(** Lemmas about subscript operations *)
From Coq Require Import ZArith List Bool Lia Znumtheory.
From Verif.Spec Require Import Seq NativeSpec OperandSpec GatherSpec SubscriptSpec.
From Verif.Model Require Import SseMove SortNet SseBuild SimdArray SimdArrayOps Mem GatherScatter AvxBuild AvxGather Subscript.
From Verif.Proof Require Import SeqP SimdArrayP.
Import ListNotations.
Local Open Scope Z_scope.

(** ** alignment *)
Definition pow8 (a : Z) : Prop := a = 1 \/ a = 2 \/ a = 4 \/ a = 8.
Lemma pow8_divide a b : pow8 a -> pow8 b -> a <= b -> (a | b).
Proof. intros [->|[->|[->| ->]]] [->|[->|[->| ->]]] H; try lia; first [exists 1; reflexivity|exists 2; reflexivity|exists 4; reflexivity|exists 8; reflexivity]. Qed.
Definition largest : list (Z * ctype) -> Z := fix largest l := match l with [] => 1 | (_, u) :: r => Z.max (alignof u) (largest r) end.
Definition all_members (s : Z) : list (Z * ctype) -> Prop :=
  fix all l := match l with [] => True | (o, u) :: r => (laid_out u /\ 0 <= o /\ (alignof u | o) /\ o + sizeof u <= s) /\ all r end.
Lemma alignof_class s ms : alignof (Class s ms) = largest ms. Proof. reflexivity. Qed.
Lemma laid_out_class s ms : laid_out (Class s ms) = (0 < s /\ (largest ms | s) /\ all_members s ms). Proof. reflexivity. Qed.
Lemma all_members_nth s ms k o u : all_members s ms -> nth_error ms k = Some (o, u) -> laid_out u /\ 0 <= o /\ (alignof u | o) /\ o + sizeof u <= s.
Proof. revert k. induction ms as [|[o' u'] r IH]; intros [|k] H N; try discriminate N; cbn in *; [injection N as -> ->; tauto|destruct H; eauto]. Qed.
Lemma largest_ge ms k o u : nth_error ms k = Some (o, u) -> alignof u <= largest ms.
Proof. revert k. induction ms as [|[o' u'] r IH]; intros [|k] N; try discriminate N; cbn in *; [injection N as -> ->; lia|pose proof (IH _ N); lia]. Qed.

Fixpoint layout_facts (t : ctype) : laid_out t -> pow8 (alignof t) /\ 0 < sizeof t /\ (alignof t | sizeof t).
Proof.
  destruct t as [w|s ms|n u]; intros L.
  - cbn [alignof sizeof]. repeat split; [exact L|destruct L as [?|[?|[?|?]]]; lia|apply Z.divide_refl].
  - rewrite alignof_class. rewrite laid_out_class in L. destruct L as (P & D & A). cbn [sizeof]. split; [|tauto]. clear P D.
    induction ms as [|[o u] r IH]; [left; reflexivity|]. destruct A as ((Lu & _) & A). specialize (IH A). destruct (layout_facts u Lu) as (Pu & _). change (largest ((o, u) :: r)) with (Z.max (alignof u) (largest r)). destruct (Z.max_spec (alignof u) (largest r)) as [(_ & E)|(_ & E)]; rewrite E; assumption.
  - cbn [laid_out] in L. destruct L as (N & L). destruct (layout_facts u L) as (P & Q & D). cbn [alignof sizeof]. split; [exact P|]. split; [nia|]. apply Z.divide_mul_r. exact D.
Qed.
Lemma member_align s ms k o u : laid_out (Class s ms) -> nth_error ms k = Some (o, u) -> laid_out u /\ (alignof u | alignof (Class s ms)).
Proof.
  intros L N. pose proof (layout_facts _ L) as (P & _). rewrite alignof_class in *. pose proof L as L'. rewrite laid_out_class in L. destruct L as (_ & _ & A). destruct (all_members_nth _ _ _ _ _ A N) as (Lu & _).
  split; [exact Lu|]. apply pow8_divide; [apply layout_facts; exact Lu|exact P|]. apply (largest_ge _ _ _ _ N).
Qed.

(** ** numbers of the index type *)
Lemma wrap_fits k z : fits k z -> wrap k z = z.
Proof. destruct k; cbn [fits wrap]; intros H; [|apply Z.mod_small; exact H| |apply Z.mod_small; exact H]; rewrite Z.mod_small; lia. Qed.
Lemma number_fits k z : fits k z -> number k z = Some z.
Proof. intros H. unfold number. rewrite (wrap_fits _ _ H), Z.eqb_refl. destruct k; reflexivity. Qed.
Lemma wrap_cong k x y : (exists q, x = y + q * match k with IxInt | IxUInt => 2 ^ 32 | _ => 2 ^ 64 end) -> wrap k x = wrap k y.
Proof.
  intros (q & ->). destruct k; cbn [wrap].
  - f_equal. replace (y + q * 2 ^ 32 + 2 ^ 31) with (y + 2 ^ 31 + q * 2 ^ 32) by ring. apply Z.mod_add. lia.
  - apply Z.mod_add. lia.
  - f_equal. replace (y + q * 2 ^ 64 + 2 ^ 63) with (y + 2 ^ 63 + q * 2 ^ 64) by ring. apply Z.mod_add. lia.
  - apply Z.mod_add. lia.
Qed.
Lemma wrap_is k z : exists q, wrap k z = z + q * match k with IxInt | IxUInt => 2 ^ 32 | _ => 2 ^ 64 end.
Proof.
  destruct k; cbn [wrap].
  - exists (- ((z + 2 ^ 31) / 2 ^ 32)). rewrite Z.mod_eq by lia. ring.
  - exists (- (z / 2 ^ 32)). rewrite Z.mod_eq by lia. ring.
  - exists (- ((z + 2 ^ 63) / 2 ^ 64)). rewrite Z.mod_eq by lia. ring.
  - exists (- (z / 2 ^ 64)). rewrite Z.mod_eq by lia. ring.
Qed.
Lemma wrap_mul k a b : wrap k (wrap k a * b) = wrap k (a * b).
Proof. apply wrap_cong. destruct (wrap_is k a) as (q & ->). exists (q * b). ring. Qed.
Lemma wrap_mul_l k a b : wrap k (b * wrap k a) = wrap k (b * a).
Proof. rewrite (Z.mul_comm b), (Z.mul_comm b). apply wrap_mul. Qed.
Lemma wrap_plus k a b : wrap k (wrap k a + b) = wrap k (a + b).
Proof. apply wrap_cong. destruct (wrap_is k a) as (q & ->). exists q. ring. Qed.
Lemma fits_smaller k a b : 1 <= a -> fits k (a * b) -> fits k b.
Proof. intros A. destruct k; cbn [fits]; nia. Qed.
Lemma fits_between k x z : 0 <= x <= z -> fits k z -> fits k x.
Proof. intros A. destruct k; cbn [fits]; lia. Qed.

(** ** ratios *)
Lemma ratio_spec n d : 0 < n -> 0 < d -> let (n', d') := ratio n d in 0 < n' /\ 0 < d' /\ Z.gcd n' d' = 1 /\ n * d' = n' * d.
Proof.
  intros N D. unfold ratio. set (g := Z.gcd n d).
  assert (G : 0 < g) by (pose proof (Z.gcd_nonneg n d) as G; fold g in G; destruct (Z.eq_dec g 0) as [E|]; [apply Z.gcd_eq_0_l in E; lia|lia]).
  destruct (Z.gcd_divide_l n d) as (a & A). destruct (Z.gcd_divide_r n d) as (b & B). fold g in A, B.
  assert (EA : n / g = a) by (rewrite A; apply Z.div_mul; lia). assert (EB : d / g = b) by (rewrite B; apply Z.div_mul; lia). rewrite EA, EB.
  split; [nia|]. split; [nia|]. split; [|rewrite A, B; ring].
  rewrite <- EA, <- EB. apply Z.gcd_div_gcd; [lia|reflexivity].
Qed.
(** a reduced ratio that is an integer *)
Lemma ratio_integer n d q w : 0 < n -> 0 < d -> 0 < w -> Z.gcd n d = 1 -> n * w = d * (q * w) -> d = 1 /\ n = q.
Proof.
  intros N D W G E. assert (E' : n = q * d) by nia. assert (Dv : (d | 1)) by (rewrite <- G; apply Z.gcd_greatest; [exists q; exact E'|apply Z.divide_refl]).
  apply Z.divide_1_r_nonneg in Dv; [|lia]. subst d. lia.
Qed.

(** ** lists *)
Lemma znth_nth (d : Z) xs k : 0 <= k < Z.of_nat (length xs) -> znth d xs k = nth (Z.to_nat k) xs d.
Proof. intros H. unfold znth. destruct (Z.leb_spec 0 k), (Z.ltb_spec k (Z.of_nat (length xs))); try lia. reflexivity. Qed.
Lemma sequence_some (l : list Z) : sequence (map Some l) = Some l.
Proof. induction l as [|x r IH]; [reflexivity|]. cbn. now rewrite IH. Qed.
Lemma sequence_map {A} (f : A -> option Z) (g : A -> Z) l : (forall x, In x l -> f x = Some (g x)) -> sequence (map f l) = Some (map g l).
Proof. intros H. rewrite <- sequence_some, map_map. f_equal. apply map_ext_in. exact H. Qed.
Lemma in_combine_znth (xs ys : list Z) a b : length xs = length ys -> In (a, b) (combine xs ys) -> exists i, 0 <= i < Z.of_nat (length xs) /\ a = znth 0 xs i /\ b = znth 0 ys i.
Proof.
  intros L I. apply (In_nth _ _ (0, 0)) in I. destruct I as (n & N & E). rewrite combine_length in N. rewrite combine_nth in E by exact L. injection E as <- <-.
  exists (Z.of_nat n). split; [lia|]. rewrite !znth_nth by lia. rewrite Nat2Z.id. auto.
Qed.
Lemma znth_zip (f : Z -> Z -> Z) (xs ys : list Z) i : length xs = length ys -> 0 <= i < Z.of_nat (length xs) ->
  znth 0 (map (fun xy => f (fst xy) (snd xy)) (combine xs ys)) i = f (znth 0 xs i) (znth 0 ys i).
Proof.
  intros L I. rewrite !znth_nth by (rewrite ?map_length, ?combine_length; lia). rewrite (nth_indep _ 0 (f (fst (0, 0)) (snd (0, 0)))) by (rewrite map_length, combine_length; lia).
  rewrite (map_nth (fun xy => f (fst xy) (snd xy))), combine_nth by exact L. reflexivity.
Qed.

(** ** the way *)
Lemma reach_align w p : forall t, laid_out t -> reach t p = Some (Number w) -> (w | alignof t) /\ 0 < w.
Proof.
  induction p as [|s r IH]; intros t L R.
  - cbn in R. assert (E : t = Number w) by (destruct t; congruence). subst t. split; [apply Z.divide_refl|]. apply layout_facts in L. apply L.
  - destruct s as [k|j|js]; destruct t as [x|sz ms|n u]; try discriminate R; cbn [reach] in R.
    + destruct (nth_error ms k) as [[o u]|] eqn:N; [|discriminate R]. destruct (member_align _ _ _ _ _ L N) as (Lu & D). destruct (IH u Lu R). split; [eapply Z.divide_trans; eassumption|assumption].
    + destruct L as (_ & L). exact (IH u L R).
    + destruct L as (_ & L). exact (IH u L R).
Qed.
Lemma moving_nonneg n p : forall t i, laid_out t -> in_bounds n t p -> 0 <= moving t p i.
Proof.
  induction p as [|s r IH]; intros t i L B; [cbn; lia|]. destruct s as [k|j|js]; destruct t as [x|sz ms|len u]; cbn [moving in_bounds] in *; try lia.
  - destruct (nth_error ms k) as [[o u]|] eqn:N; [|lia]. destruct (member_align _ _ _ _ _ L N) as (Lu & D). now apply IH.
  - destruct L, B. now apply IH.
  - destruct L as (_ & L). destruct B as ((_ & F) & B). specialize (IH u i L B). apply layout_facts in L. assert (0 <= znth 0 js i); [|nia].
    unfold znth. destruct (_ && _) eqn:E; [|lia]. rewrite andb_true_iff, Z.leb_le, Z.ltb_lt in E. rewrite Forall_forall in F. apply F. apply nth_In. lia.
Qed.

(** the indexes [e] stand for the numbers [E] *)
Definition stands (k : index_kind) (st : storage) (e E : list Z) : Prop :=
  if is_simd st then e = map (wrap k) E else e = E /\ Forall (fun z => 0 <= z) E.
Lemma stands_length k st e E : stands k st e E -> length e = length E.
Proof. unfold stands. destruct (is_simd st); [intros ->; apply map_length|intros (-> & _); reflexivity]. Qed.

Lemma follow_ok k st n w p : forall o E stride,
  laid_out (o_type o) -> length E = n -> stands k st (entries o) E -> 0 < num o -> 0 < den o -> Z.gcd (num o) (den o) = 1 ->
  num o * sizeof (o_type o) = den o * stride -> 0 < stride -> (alignof (o_type o) | stride) -> reach (o_type o) p = Some (Number w) ->
  in_bounds n (o_type o) p -> divides stride (o_type o) p ->
  (is_simd st = false -> forall i, 0 <= i < Z.of_nat n -> fits k ((stride * znth 0 E i + moving (o_type o) p i) / w)) ->
  exists o' E' stride', follow k st o p = Some o' /\ o_type o' = Number w /\ length E' = n /\ stands k st (entries o') E' /\ den o' = 1 /\ 0 < num o' /\ num o' * w = stride' /\
    forall i, 0 <= i < Z.of_nat n -> o_address o' + stride' * znth 0 E' i = o_address o + stride * znth 0 E i + offset (o_type o) p i /\
      stride' * znth 0 E' i = stride * znth 0 E i + moving (o_type o) p i.
Proof.
  induction p as [|s r IH]; intros o E stride L LE SE N D G EQ S AL R B DV FT.
  - cbn in R. assert (T : o_type o = Number w) by (destruct (o_type o); congruence). rewrite T in *. cbn [sizeof alignof] in *.
    destruct AL as (q & Q). assert (W : 0 < w) by (destruct L as [?|[?|[?|?]]]; lia). destruct (ratio_integer (num o) (den o) q w N D W G) as (D1 & Nq); [lia|].
    exists o, E, stride. cbn [follow offset moving]. split; [reflexivity|]. split; [exact T|]. split; [exact LE|]. split; [exact SE|]. split; [exact D1|]. split; [exact N|]. split; [lia|]. intros i _. lia.
  - destruct s as [j|j|js]; destruct (o_type o) as [x|sz ms|len u] eqn:T; try discriminate R; cbn [reach in_bounds divides offset moving sizeof] in *.
    + destruct (nth_error ms j) as [[off u]|] eqn:NJ; [|discriminate R]. destruct (member_align _ _ _ _ _ L NJ) as (Lu & DA). pose proof (layout_facts u Lu) as (_ & SU & _).
      assert (SZ : 0 < sz) by (rewrite laid_out_class in L; lia).
      pose proof (ratio_spec (num o * sz) (den o * sizeof u) ltac:(nia) ltac:(nia)) as RS. unfold follow; fold follow. unfold follow1, member. rewrite T, NJ. destruct (ratio (num o * sz) (den o * sizeof u)) as [n' d'] eqn:RE. destruct RS as (N' & D' & G' & EQ').
      cbn [obind]. destruct (IH (mkoperation u (o_address o + off) n' d' (entries o)) E stride) as (o' & E' & stride' & F & Q1 & Q2 & Q3 & Q4 & Q5 & Q6 & Q7); cbn [o_type o_address num den entries]; auto.
      * nia.
      * eapply Z.divide_trans; eassumption.
      * exists o', E', stride'. cbn [o_type o_address] in *. split; [exact F|]. repeat (split; [assumption|]). intros i I. destruct (Q7 i I). split; lia.
    + destruct L as (LN & Lu). pose proof (layout_facts u Lu) as (_ & SU & _). destruct B as (BJ & B).
      pose proof (ratio_spec (num o * (len * sizeof u)) (den o * sizeof u) ltac:(nia) ltac:(nia)) as RS. unfold follow; fold follow. unfold follow1, at_index. rewrite T. cbn [sizeof]. destruct (ratio (num o * (len * sizeof u)) (den o * sizeof u)) as [n' d'] eqn:RE. destruct RS as (N' & D' & G' & EQ').
      cbn [obind]. destruct (IH (mkoperation u (o_address o + j * sizeof u) n' d' (entries o)) E stride) as (o' & E' & stride' & F & Q1 & Q2 & Q3 & Q4 & Q5 & Q6 & Q7); cbn [o_type o_address num den entries]; auto.
      * nia.
      * exists o', E', stride'. cbn [o_type o_address] in *. split; [exact F|]. repeat (split; [assumption|]). intros i I. destruct (Q7 i I). split; lia.
    + destruct L as (LN & Lu). pose proof (layout_facts u Lu) as (_ & SU & AU). destruct B as ((LJ & BJ) & B). destruct DV as ((v & DV) & DV').
      pose proof (ratio_spec (num o * (len * sizeof u)) (den o * sizeof u) ltac:(nia) ltac:(nia)) as RS. unfold follow; fold follow. unfold follow1, at_each. rewrite T. cbn [sizeof]. destruct (ratio (num o * (len * sizeof u)) (den o * sizeof u)) as [n' d'] eqn:RE. destruct RS as (N' & D' & G' & EQ').
      destruct (ratio_integer n' d' v (sizeof u) N' D' SU G') as (D1 & NV); [nia|]. subst d'. assert (V : 1 <= v) by lia. subst n'.
      set (E1 := map (fun xy => v * fst xy + snd xy) (combine E js)).
      assert (LE1 : length E1 = n) by (unfold E1; rewrite map_length, combine_length; lia).
      assert (NE1 : forall i, 0 <= i < Z.of_nat n -> znth 0 E1 i = v * znth 0 E i + znth 0 js i) by (intros i I; unfold E1; apply (znth_zip (fun x y => v * x + y)); lia).
      assert (PJ : forall i, 0 <= i < Z.of_nat n -> 0 <= znth 0 js i) by (intros i I; rewrite znth_nth by lia; rewrite Forall_forall in BJ; apply BJ; apply nth_In; lia).
      destruct (reach_align w r u Lu R) as (WA & W0). assert (WU : w <= sizeof u) by (apply Z.divide_pos_le; [lia|]; eapply Z.divide_trans; eassumption).
      assert (AP : exists e, apply_scale_and_add k st v 1 (entries o) js = Some e /\ stands k st e E1).
      { unfold apply_scale_and_add. rewrite Z.div_1_r. rewrite (stands_length _ _ _ _ SE), LE, LJ, Nat.leb_refl. unfold stands in SE |- *. unfold multiply, plus. destruct (is_simd st) eqn:ST.
        - exists (map (wrap k) E1). split; [|reflexivity]. rewrite SE. unfold E1. rewrite map_map.
          transitivity (sequence (map (fun xy => Some (wrap k (v * fst xy + snd xy))) (combine E js))); [|rewrite <- (map_map (fun xy => wrap k (v * fst xy + snd xy)) Some); apply sequence_some].
          f_equal. clear - V. revert js. induction E as [|x xs IHx]; intros [|y ys]; [reflexivity..|]. cbn [map combine fst snd]. rewrite IHx. f_equal.
          destruct (Z.eqb_spec v 1) as [->|]; cbn [obind]; f_equal.
          + rewrite wrap_plus. f_equal. ring.
          + rewrite wrap_plus. rewrite <- (wrap_plus k (wrap k x * v)), wrap_mul, wrap_plus. f_equal. ring.
        - destruct SE as (SE & PE). rewrite SE. specialize (FT eq_refl). exists E1. split.
          + apply sequence_map. intros [a b] I. cbn [fst snd]. destruct (in_combine_znth E js a b ltac:(lia) I) as (i & Hi & -> & ->). rewrite LE in Hi. specialize (FT i Hi). specialize (PJ i Hi).
            assert (PEi : 0 <= znth 0 E i) by (rewrite znth_nth by lia; rewrite Forall_forall in PE; apply PE; apply nth_In; lia).
            pose proof (moving_nonneg n r u i Lu B) as MN.
            assert (F1 : fits k (v * znth 0 E i + znth 0 js i)).
            { apply (fits_between _ _ _) with (2 := FT). split; [nia|]. apply Z.div_le_lower_bound; [lia|]. nia. }
            destruct (Z.eqb_spec v 1) as [->|]; [rewrite number_fits; [f_equal; ring|]; replace (znth 0 E i + znth 0 js i) with (1 * znth 0 E i + znth 0 js i) by ring; exact F1|].
            rewrite number_fits; [cbn [obind]; rewrite number_fits; [f_equal; ring|replace (znth 0 E i * v) with (v * znth 0 E i) by ring; exact F1]|].
            apply (fits_between _ _ _) with (2 := F1). nia.
          + split; [reflexivity|]. apply Forall_forall. intros z I. apply (In_nth _ _ 0) in I. destruct I as (m & M & <-). rewrite LE1 in M.
            specialize (NE1 (Z.of_nat m) ltac:(lia)). specialize (PJ (Z.of_nat m) ltac:(lia)). rewrite (znth_nth 0 E1) in NE1 by lia. rewrite Nat2Z.id in NE1. rewrite NE1.
            assert (0 <= znth 0 E (Z.of_nat m)) by (rewrite znth_nth by lia; rewrite Forall_forall in PE; apply PE; apply nth_In; lia). nia. }
      destruct AP as (e & AP & SE1). rewrite AP. cbn [obind].
      assert (SK : forall i, 0 <= i < Z.of_nat n -> sizeof u * znth 0 E1 i = stride * znth 0 E i + znth 0 js i * sizeof u) by (intros i I; rewrite NE1 by exact I; rewrite DV; ring).
      destruct (IH (mkoperation u (o_address o) 1 1 e) E1 (sizeof u)) as (o' & E' & stride' & F & Q1 & Q2 & Q3 & Q4 & Q5 & Q6 & Q7); cbn [o_type o_address num den entries]; auto; try lia.
      * intros ST i I. specialize (FT ST i I). rewrite SK by exact I. replace (stride * znth 0 E i + znth 0 js i * sizeof u + moving u r i) with (stride * znth 0 E i + (znth 0 js i * sizeof u + moving u r i)) by ring. exact FT.
      * exists o', E', stride'. cbn [o_type o_address] in *. split; [exact F|]. repeat (split; [assumption|]). intros i I. destruct (Q7 i I). specialize (SK i I). split; lia.
Qed.

(** ** gather and scatter arguments *)
Lemma sequence_map_some (f : Z -> option Z) (g : Z -> Z) l : (forall i, 0 <= i < Z.of_nat (length l) -> f (znth 0 l i) = Some (g (znth 0 l i))) -> sequence (map f l) = Some (map g l).
Proof. intros H. apply sequence_map. intros x I. apply (In_nth _ _ 0) in I. destruct I as (m & M & <-). specialize (H (Z.of_nat m) ltac:(lia)). rewrite znth_nth in H by lia. rewrite Nat2Z.id in H. exact H. Qed.
Lemma list_ext (a b : list Z) : length a = length b -> (forall i, 0 <= i < Z.of_nat (length a) -> znth 0 a i = znth 0 b i) -> a = b.
Proof. intros L H. apply (nth_ext _ _ 0 0); [exact L|]. intros i I. specialize (H (Z.of_nat i) ltac:(lia)). rewrite !znth_nth in H by lia. rewrite Nat2Z.id in H. exact H. Qed.
Lemma znth_map0 (f : Z -> Z) l i : 0 <= i < Z.of_nat (length l) -> znth 0 (map f l) i = f (znth 0 l i).
Proof. intros I. rewrite !znth_nth by (rewrite ?map_length; lia). rewrite (nth_indep _ 0 (f 0)) by (rewrite map_length; lia). apply map_nth. Qed.
Lemma map_wrap_fits k l : (forall i, 0 <= i < Z.of_nat (length l) -> fits k (znth 0 l i)) -> map (wrap k) l = l.
Proof. intros H. apply list_ext; [apply map_length|]. rewrite map_length. intros i I. rewrite znth_map0 by exact I. apply wrap_fits. auto. Qed.

Lemma arguments_ok k st n w S p data idx :
  laid_out S -> length idx = n -> Forall (fits k) idx -> (is_simd st = false -> Forall (fun z => 0 <= z) idx) ->
  reach S p = Some (Number w) -> in_bounds n S p -> divides (sizeof S) S p ->
  (forall i, 0 <= i < Z.of_nat n -> fits k ((sizeof S * znth 0 idx i + moving S p i) / w)) ->
  exists o x scale F, follow k st (subscript_operator S data idx) p = Some o /\ o_type o = Number w /\ gather_arguments k st o = Some (x, scale) /\ scaled_entries k scale x = Some F /\
    (is_simd st = true -> scaled_vector k st scale x = Some F) /\ scatter_indexes k st o = Some F /\ length F = n /\ 0 < w /\ scale * w <= Z.max 8 w /\ 1 <= scale /\ length x = n /\
    (forall i, 0 <= i < Z.of_nat n -> fits k (znth 0 x i) /\ scale * znth 0 x i = znth 0 F i) /\
    forall i, 0 <= i < Z.of_nat n -> o_address o + w * znth 0 F i = data + place S p idx i.
Proof.
  intros L LI FI PI R B DV FT. pose proof (layout_facts S L) as (_ & SS & AS). destruct (reach_align w p S L R) as (WA & W0).
  assert (FIi : forall i, 0 <= i < Z.of_nat n -> fits k (znth 0 idx i)) by (intros i I; rewrite znth_nth by lia; rewrite Forall_forall in FI; apply FI; apply nth_In; lia).
  destruct (follow_ok k st n w p (subscript_operator S data idx) idx (sizeof S)) as (o & E & stride & F & T & LE & SE & D1 & N & NW & Q); cbn [subscript_operator o_type o_address num den entries]; auto; try lia.
  { unfold stands. destruct (is_simd st) eqn:ST; [symmetry; apply map_wrap_fits; rewrite LI; exact FIi|auto]. }
  cbn [subscript_operator o_type o_address] in Q.
  assert (NE : forall i, 0 <= i < Z.of_nat n -> fits k (num o * znth 0 E i)).
  { intros i I. specialize (FT i I). destruct (Q i I) as (_ & Q2). rewrite <- Q2, <- NW in FT. replace (num o * w * znth 0 E i) with (num o * znth 0 E i * w) in FT by ring. now rewrite Z.div_mul in FT by lia. }
  assert (EE : entries o = E).
  { unfold stands in SE. destruct (is_simd st); [|apply SE]. rewrite SE. apply map_wrap_fits. rewrite LE. intros i I. apply (fits_smaller k (num o)); [lia|auto]. }
  assert (FE : forall i, 0 <= i < Z.of_nat n -> fits k (znth 0 E i)) by (intros i I; apply (fits_smaller k (num o)); [lia|auto]).
  set (G := map (fun z => num o * z) E). assert (LG : length G = n) by (unfold G; now rewrite map_length).
  assert (NG : forall i, 0 <= i < Z.of_nat n -> znth 0 G i = num o * znth 0 E i) by (intros i I; unfold G; apply znth_map0; lia).
  assert (SC : apply_scale k st (num o) (den o) (entries o) = Some G).
  { unfold apply_scale. rewrite D1, EE, Z.mod_1_r, Z.div_1_r. destruct (Z.eqb_spec (num o) 1) as [N1|]; [f_equal; apply list_ext; [lia|]; rewrite LE; intros i I; rewrite NG by exact I; rewrite N1; lia|].
    cbn [Z.eqb]. unfold G. apply sequence_map_some. rewrite LE. intros i I. specialize (NE i I). unfold multiply. replace (znth 0 E i * num o) with (num o * znth 0 E i) by ring. rewrite (wrap_fits _ _ NE), (number_fits _ _ NE). destruct (is_simd st); reflexivity. }
  assert (AD : forall i, 0 <= i < Z.of_nat n -> o_address o + w * znth 0 G i = data + place S p idx i).
  { intros i I. destruct (Q i I) as (Q1 & _). rewrite NG by exact I. unfold place. rewrite <- NW in Q1. rewrite <- Z.add_assoc in Q1. rewrite <- Q1. ring. }
  assert (S1 : forall l, length l = n -> (forall i, 0 <= i < Z.of_nat n -> fits k (znth 0 l i)) -> scaled_entries k 1 l = Some l /\ (is_simd st = true -> scaled_vector k st 1 l = Some l)).
  { intros l Ll H. split.
    - unfold scaled_entries. rewrite (sequence_map_some _ (fun z => z)); [now rewrite map_id|]. rewrite Ll. intros i I. rewrite Z.mul_1_l. apply number_fits. auto.
    - intros ST. unfold scaled_vector. rewrite ST. f_equal. transitivity (map (wrap k) l); [apply map_ext; intros z; now rewrite Z.mul_1_l|]. apply map_wrap_fits. rewrite Ll. exact H. }
  destruct (negb (num o mod den o =? 0) || (8 <? num o / den o * w)) eqn:X.
  - exists o, G, 1, G. split; [exact F|]. split; [exact T|]. split; [unfold gather_arguments; rewrite T, X, SC; reflexivity|]. assert (FG : forall i, 0 <= i < Z.of_nat n -> fits k (znth 0 G i)) by (intros i I; rewrite NG; auto).
    destruct (S1 G LG FG) as (A1 & A2). split; [exact A1|]. split; [exact A2|]. split; [unfold scatter_indexes; rewrite T; exact SC|]. split; [exact LG|]. split; [exact W0|]. split; [lia|]. split; [lia|]. split; [exact LG|]. split; [|exact AD]. intros i I. split; [auto|lia].
  - exists o, E, (num o), G. rewrite orb_false_iff, Z.ltb_ge in X. destruct X as (X1 & X2). rewrite D1, Z.div_1_r in X2.
    split; [exact F|]. split; [exact T|]. split; [unfold gather_arguments; rewrite T, D1, Z.mod_1_r, Z.div_1_r; cbn [Z.eqb negb orb]; destruct (Z.ltb_spec 8 (num o * w)); [lia|]; rewrite EE; reflexivity|].
    split; [unfold scaled_entries, G; apply sequence_map_some; rewrite LE; intros i I; apply number_fits; auto|].
    split; [intros ST; unfold scaled_vector; rewrite ST; f_equal; apply list_ext; [rewrite map_length; lia|]; rewrite map_length, LE; intros i I; rewrite znth_map0 by lia; rewrite NG by exact I; apply wrap_fits; auto|].
    split; [unfold scatter_indexes; rewrite T; exact SC|]. split; [exact LG|]. split; [exact W0|]. split; [lia|]. split; [lia|]. split; [exact LE|]. split; [|exact AD]. intros i I. split; [auto|]. now rewrite NG.
Qed.

(** the expression of the examples *)
Lemma sample_expression st : (st = InStdVector \/ exists native, st = InArray native /\ widths_ok native) -> expression IxInt st 5 4 sample sample_way sample_indexes.
Proof.
  intros ST. unfold sample, sample_way, sample_indexes. split; [|split; [|split; [|split; [|split]]]].
  - cbn. repeat split; try lia; try (right; right; left; reflexivity); try (right; right; right; reflexivity); first [exists 0; lia|exists 1; lia|exists 2; lia|exists 3; lia].
  - split; [destruct ST as [->|(native & -> & W)]; cbn; auto|]. split; [reflexivity|]. split; [|intros _]; repeat constructor; cbn; lia.
  - reflexivity.
  - cbn. split; [split; [reflexivity|]|exact I]. repeat constructor; lia.
  - cbn. split; [exists 6; lia|exact I].
  - intros i Hi. assert (C : i = 0 \/ i = 1 \/ i = 2 \/ i = 3 \/ i = 4) by lia. destruct C as [->|[->|[->|[->| ->]]]]; vm_compute; split; congruence.
Qed.
Lemma sample_expression8 : expression IxInt InVector 4 8 (Class 24 [(0, Number 8); (8, Array 2 (Number 8))]) [Member 1; At 1] [3; 0; 1; 1].
Proof.
  split; [|split; [|split; [|split; [|split]]]].
  - cbn. repeat split; try lia; try (right; right; right; reflexivity); first [exists 0; lia|exists 1; lia|exists 3; lia].
  - split; [exists 2%nat; reflexivity|]. split; [reflexivity|]. split; [|intros _]; repeat constructor; cbn; lia.
  - reflexivity.
  - cbn. lia.
  - exact I.
  - intros i Hi. assert (C : i = 0 \/ i = 1 \/ i = 2 \/ i = 3) by lia. destruct C as [->|[->|[->| ->]]]; vm_compute; split; congruence.
Qed.
