(** several members of objects at once: tie(v0, v1, ...) = data[indexes][&S::member] (proofs). *)
From Coq Require Import ZArith List Bool Lia.
From Verif.Spec Require Import Seq SubscriptSpec InterleaveSpec TieSpec.
From Verif.Model Require Import SimdArray Mem Tie.
Import ListNotations.
Local Open Scope Z_scope.
From Verif.Model Require Subscript Interleave AvxInterleave.
From Verif.Proof Require SubscriptP InterleaveMain AvxInterleaveMain.

Lemma follow_size k st w p : forall o o' s,
  laid_out (Subscript.o_type o) -> 0 < Subscript.num o -> 0 < Subscript.den o -> reach (Subscript.o_type o) p = Some (Number w) ->
  Subscript.num o * sizeof (Subscript.o_type o) = Subscript.den o * s ->
  Subscript.follow k st o p = Some o' ->
  Subscript.num o' * w = Subscript.den o' * indexed_size s (Subscript.o_type o) p.
Proof.
  induction p as [|x r IH]; intros o o' s L N D R EQ F.
  - cbn in R, F. injection F as <-. assert (T : Subscript.o_type o = Number w) by (destruct (Subscript.o_type o); congruence).
    rewrite T in *. exact EQ.
  - destruct x as [j|j|js]; destruct (Subscript.o_type o) as [x|sz ms|len u] eqn:T; try discriminate R; cbn [reach indexed_size sizeof] in *.
    + destruct (nth_error ms j) as [[off u]|] eqn:NJ; [|discriminate R]. destruct (SubscriptP.member_align _ _ _ _ _ L NJ) as (Lu & _).
      pose proof (SubscriptP.layout_facts u Lu) as (_ & SU & _). assert (SZ : 0 < sz) by (rewrite SubscriptP.laid_out_class in L; lia).
      pose proof (SubscriptP.ratio_spec (Subscript.num o * sz) (Subscript.den o * sizeof u) ltac:(nia) ltac:(nia)) as RS.
      unfold Subscript.follow in F; fold Subscript.follow in F. unfold Subscript.follow1, Subscript.member in F. rewrite T, NJ in F.
      destruct (Subscript.ratio (Subscript.num o * sz) (Subscript.den o * sizeof u)) as [n' d'] eqn:RE. destruct RS as (N' & D' & _ & EQ').
      cbn [obind] in F. apply (IH (Subscript.mkoperation u (Subscript.o_address o + off) n' d' (Subscript.entries o)) o' s) in F; cbn [Subscript.o_type Subscript.num Subscript.den] in *; auto.
      nia.
    + destruct L as (LN & Lu). pose proof (SubscriptP.layout_facts u Lu) as (_ & SU & _).
      pose proof (SubscriptP.ratio_spec (Subscript.num o * (len * sizeof u)) (Subscript.den o * sizeof u) ltac:(nia) ltac:(nia)) as RS.
      unfold Subscript.follow in F; fold Subscript.follow in F. unfold Subscript.follow1, Subscript.at_index in F. rewrite T in F. cbn [sizeof] in F.
      destruct (Subscript.ratio (Subscript.num o * (len * sizeof u)) (Subscript.den o * sizeof u)) as [n' d'] eqn:RE. destruct RS as (N' & D' & _ & EQ').
      cbn [obind] in F. apply (IH (Subscript.mkoperation u (Subscript.o_address o + j * sizeof u) n' d' (Subscript.entries o)) o' s) in F; cbn [Subscript.o_type Subscript.num Subscript.den] in *; auto.
      nia.
    + destruct L as (LN & Lu).
      unfold Subscript.follow in F; fold Subscript.follow in F. unfold Subscript.follow1, Subscript.at_each in F. rewrite T in F. cbn [sizeof] in F.
      destruct (Subscript.ratio (Subscript.num o * (len * sizeof u)) (Subscript.den o * sizeof u)) as [n' d'].
      destruct (Subscript.apply_scale_and_add k st n' d' (Subscript.entries o) js) as [e|]; [|discriminate F].
      cbn [obind] in F. apply (IH (Subscript.mkoperation u (Subscript.o_address o) 1 1 e) o' (sizeof u)) in F; cbn [Subscript.o_type Subscript.num Subscript.den] in *; auto; lia.
Qed.
Lemma follow_fixed k st p : forall o o', fixed_way p -> Subscript.follow k st o p = Some o' ->
  Subscript.entries o' = Subscript.entries o /\ Subscript.o_address o' = Subscript.o_address o + offset (Subscript.o_type o) p 0.
Proof.
  induction p as [|x r IH]; intros o o' FW F; [injection F as <-; cbn; split; [reflexivity|lia]|].
  unfold Subscript.follow in F; fold Subscript.follow in F. destruct x as [j|j|js]; [| |contradiction]; cbn [fixed_way] in FW; unfold Subscript.follow1, Subscript.member, Subscript.at_index in F.
  - destruct (Subscript.o_type o) as [x|sz ms|len u] eqn:T; try discriminate F. destruct (nth_error ms j) as [[off u]|] eqn:NJ; [|discriminate F].
    destruct (Subscript.ratio _ _) as [n' d']. cbn [obind] in F. apply IH in F; [|exact FW]. cbn [Subscript.entries Subscript.o_address Subscript.o_type] in F.
    cbn [offset]. rewrite NJ. destruct F as [-> ->]. split; [reflexivity|lia].
  - destruct (Subscript.o_type o) as [x|sz ms|len u] eqn:T; try discriminate F.
    destruct (Subscript.ratio _ _) as [n' d']. cbn [obind] in F. apply IH in F; [|exact FW]. cbn [Subscript.entries Subscript.o_address Subscript.o_type] in F.
    cbn [offset]. destruct F as [-> ->]. split; [reflexivity|lia].
Qed.
Definition native_size (b : vectors) (n : nat) : Prop := match b with SseOrScalar => In n [1; 2; 4; 8]%nat | AvxVectors => In n [4; 8; 16]%nat end.
Definition touched (b : vectors) (n c : nat) : nat := match b with SseOrScalar => members_read n c | AvxVectors => avx_members_read n c Interleave.AnyIndex end.
Lemma deinterleave_ok {A} (zero : A) b n c data i (m : memory A) : native_size b n -> (2 <= c <= 8)%nat ->
  members_mapped n (touched b n c) data i m -> exists vs, deinterleave zero b n c data i m = Some vs /\ structs_read n c data i m vs.
Proof.
  intros H C M. destruct b; cbn [native_size touched deinterleave] in *.
  - exact (InterleaveMain.C27_deinterleave_main A zero n c data i m H C M).
  - apply AvxInterleaveMain.C27_avx_deinterleave_main; try assumption. intros s E. discriminate E.
Qed.
Lemma tie_core {A} (zero : A) b n c w k st S p idx data (m : memory A) o args (at_ : Z -> Z) :
  native_size b n -> (2 <= c <= 8)%nat -> is_simd st = true ->
  Subscript.follow k st (Subscript.subscript_operator S data idx) p = Some o -> Subscript.gather_arguments k st o = Some args ->
  (forall e, 0 <= e < Z.of_nat n -> Subscript.o_address o + w * znth 0 (fst args) e = at_ e) ->
  consecutive_mapped n (touched b n c) w at_ m ->
  exists vs, tie_assign zero b n c w k st S data idx p m = Some vs /\ consecutive_read n c w at_ m vs.
Proof.
  intros NS C ST F G P M.
  destruct (deinterleave_ok zero b n c 0 (fun e => znth 0 (fst args) e) (Subscript.elements w (Subscript.o_address o) m) NS C) as (vs & E & L & R).
  { intros e d He Hd. unfold member, Subscript.elements.
    replace (Subscript.o_address o + w * (0 + znth 0 (fst args) (Z.of_nat e) + Z.of_nat d)) with (at_ (Z.of_nat e) + w * Z.of_nat d) by (rewrite <- P by lia; ring).
    apply M; assumption. }
  exists vs. unfold tie_assign. rewrite ST, F. cbn [obind]. rewrite G. cbn [obind]. split; [exact E|]. split; [exact L|]. intros d v Hv. destruct (R d v Hv) as [R1 R2]. split; [exact R1|].
  intros e He. rewrite <- (R2 e He). unfold member, Subscript.elements. f_equal. rewrite <- P by lia. ring.
Qed.
Lemma args_cases k st n w S p idx data : expression k st n w S p idx -> is_simd st = true ->
  exists o x scale, Subscript.follow k st (Subscript.subscript_operator S data idx) p = Some o /\
    Subscript.gather_arguments k st o = Some (x, scale) /\ 0 < w /\
    (forall i, 0 <= i < Z.of_nat n -> Subscript.o_address o + w * (scale * znth 0 x i) = data + place S p idx i) /\
    (indexed_size (sizeof S) S p = w \/ 8 < indexed_size (sizeof S) S p -> scale = 1) /\
    (w < indexed_size (sizeof S) S p <= 8 -> x = Subscript.entries o).
Proof.
  intros (L & (_ & LI & FI & PI) & R & B & DV & FT) ST.
  destruct (SubscriptP.arguments_ok k st n w S p data idx L LI FI PI R B DV FT) as (o & x & scale & F & FO & T & G & _ & _ & _ & _ & W & _ & _ & LX & XF & AD).
  exists o, x, scale. split; [exact FO|]. split; [exact G|]. split; [exact W|]. split.
  { intros i I. destruct (XF i I) as (_ & ->). apply AD. exact I. }
  pose proof (SubscriptP.layout_facts S L) as (_ & SS & AS).
  assert (SZ : Subscript.num o * w = Subscript.den o * indexed_size (sizeof S) S p).
  { apply (follow_size k st w p (Subscript.subscript_operator S data idx) o (sizeof S)); cbn [Subscript.subscript_operator Subscript.o_type Subscript.num Subscript.den]; auto; lia. }
  assert (D1 : Subscript.den o = 1).
  { destruct (SubscriptP.follow_ok k st n w p (Subscript.subscript_operator S data idx) idx (sizeof S)) as (o2 & E & stride & F2 & _ & _ & _ & D2 & _);
      cbn [Subscript.subscript_operator Subscript.o_type Subscript.o_address Subscript.num Subscript.den Subscript.entries]; auto; try lia.
    - unfold SubscriptP.stands. rewrite ST. symmetry. apply SubscriptP.map_wrap_fits. rewrite LI. intros i I. rewrite SubscriptP.znth_nth by lia.
      rewrite Forall_forall in FI. apply FI. apply nth_In. lia.
    - rewrite FO in F2. injection F2 as <-. exact D2. }
  rewrite D1, Z.mul_1_l in SZ. unfold Subscript.gather_arguments in G. rewrite T, D1, Z.mod_1_r, Z.div_1_r in G. cbn [Z.eqb negb orb] in G.
  split; intro H.
  - destruct (Z.ltb_spec 8 (Subscript.num o * w)) as [X|X].
    + destruct (Subscript.apply_scale _ _ _ _ _); [|discriminate G]. injection G as _ <-. reflexivity.
    + injection G as _ <-. destruct H as [H|H]; [nia|lia].
  - destruct (Z.ltb_spec 8 (Subscript.num o * w)) as [X|X]; [lia|]. injection G as <- _. reflexivity.
Qed.

Lemma C73_tie_partial_main :
forall (A : Type) (zero : A) b n c w k st S p idx data (m : memory A),
  match b with SseOrScalar => In n [1; 2; 4; 8]%nat | AvxVectors => In n [4; 8; 16]%nat end -> (2 <= c <= 8)%nat ->
  is_simd st = true -> expression k st n w S p idx ->
  (indexed_size (sizeof S) S p = w \/ 8 < indexed_size (sizeof S) S p) ->
  let at_ := fun e => data + place S p idx e in
  consecutive_mapped n (match b with SseOrScalar => members_read n c | AvxVectors => avx_members_read n c Interleave.AnyIndex end) w at_ m ->
  exists vs, tie_assign zero b n c w k st S data idx p m = Some vs /\ consecutive_read n c w at_ m vs.
Proof.
intros A zero b n c w k st S p idx data m NS C ST E SZ at_ M.
destruct (args_cases k st n w S p idx data E ST) as (o & x & scale & F & G & W & AD & S1 & _).
apply (tie_core zero b n c w k st S p idx data m o (x, scale) at_); try assumption.
intros e He. cbn [fst]. unfold at_. rewrite <- (AD e He), (S1 SZ), Z.mul_1_l. reflexivity.
Qed.

Lemma C73_tie_small_refuted_main :
forall (A : Type) (zero : A) b n c w k st S p idx data (m : memory A),
  match b with SseOrScalar => In n [1; 2; 4; 8]%nat | AvxVectors => In n [4; 8; 16]%nat end -> (2 <= c <= 8)%nat ->
  is_simd st = true -> expression k st n w S p idx -> fixed_way p -> w < sizeof S <= 8 ->
  let at_ := fun e => data + offset S p 0 + w * znth 0 idx e in
  consecutive_mapped n (match b with SseOrScalar => members_read n c | AvxVectors => avx_members_read n c Interleave.AnyIndex end) w at_ m ->
  exists vs, tie_assign zero b n c w k st S data idx p m = Some vs /\ consecutive_read n c w at_ m vs.
Proof.
intros A zero b n c w k st S p idx data m NS C ST E FW SZ at_ M.
assert (IS : forall t s, fixed_way p -> indexed_size s t p = s).
{ clear. induction p as [|x r IH]; intros t s FW; [reflexivity|]. destruct x as [j|j|js]; [| |contradiction]; cbn [fixed_way indexed_size] in *.
  - destruct t; try reflexivity. destruct (nth_error members j) as [[? ?]|]; [apply IH, FW|reflexivity].
  - destruct t; try reflexivity. apply IH, FW. }
destruct (args_cases k st n w S p idx data E ST) as (o & x & scale & F & G & W & AD & _ & S2).
rewrite (IS S (sizeof S) FW) in S2. specialize (S2 SZ). destruct (follow_fixed k st p _ o FW F) as [EN EA]. cbn [Subscript.subscript_operator Subscript.entries Subscript.o_address Subscript.o_type] in EN, EA.
apply (tie_core zero b n c w k st S p idx data m o (x, scale) at_); try assumption.
intros e He. cbn [fst]. rewrite S2, EN, EA. reflexivity.
Qed.
