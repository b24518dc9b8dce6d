(** iteration over the vectors of a Memory object (proofs). *)
From Coq Require Import ZArith List Bool Lia.
From Verif.Spec Require Import Seq MemSpec.
From Verif.Model Require Import Mem SimdArray MemoryClass MemoryIter.
Import ListNotations.
Local Open Scope Z_scope.
From Verif.Proof Require Import SeqP MemoryP.
From Verif.Proof Require SimdArrayOpsP.

Lemma tab_succ {A} n (f : Z -> A) : tab (S n) f = f 0 :: tab n (fun i => f (i + 1)).
Proof. unfold tab. cbn [seq map]. f_equal. rewrite <- seq_shift, map_map. apply map_ext. intro i. f_equal. lia. Qed.
Lemma tab_eq {A} n (f g : Z -> A) : (forall i, 0 <= i < Z.of_nat n -> f i = g i) -> tab n f = tab n g.
Proof. intro H. unfold tab. apply map_ext_in. intros i I. apply in_seq in I. apply H. lia. Qed.
Lemma tab_app {A} p q (f : Z -> A) : tab (p + q) f = tab p f ++ tab q (fun i => f (Z.of_nat p + i)).
Proof.
  revert f. induction p as [|p IH]; intro f.
  - reflexivity.
  - cbn [Nat.add]. rewrite !tab_succ, IH. cbn [app]. f_equal. f_equal. apply tab_eq. intros. f_equal. lia.
Qed.
Lemma visited_ok width n : (0 < width)%nat -> forall d, visited width n d (d + Z.of_nat n * Z.of_nat width) = Some (tab n (fun i => d + i * Z.of_nat width)).
Proof.
  intro W. induction n as [|n IH]; intro d; cbn [visited]; unfold it_eq.
  - replace (d + Z.of_nat 0 * Z.of_nat width) with d by lia. rewrite Z.eqb_refl. reflexivity.
  - destruct (Z.eqb_spec d (d + Z.of_nat (S n) * Z.of_nat width)); [nia|]. cbn [negb].
    unfold it_next. replace (d + Z.of_nat (S n) * Z.of_nat width) with (d + Z.of_nat width + Z.of_nat n * Z.of_nat width) by lia.
    rewrite IH. cbn [option_map]. rewrite tab_succ. f_equal. f_equal; [lia|]. apply tab_eq. intros. lia.
Qed.
Lemma begin_is width base : it_begin width base = base.
Proof. unfold it_begin, vec_addr. rewrite Z.mul_0_l. unfold offset, size_t. cbn. lia. Qed.
Lemma vec_addr_is width base i : 0 <= i * Z.of_nat width < 2 ^ 63 -> vec_addr width base i = base + i * Z.of_nat width.
Proof. intro H. unfold vec_addr. rewrite offset_small by exact H. reflexivity. Qed.
Lemma minus_one_addr width base : (0 < width)%nat -> Z.of_nat width < 2 ^ 63 -> vec_addr width base (size_t (-1)) = base - Z.of_nat width.
Proof.
  intros W B. unfold vec_addr, offset, size_t. rewrite Z.mul_mod_idemp_l by lia.
  replace (-1 * Z.of_nat width) with (2 ^ 64 - Z.of_nat width + (-1) * 2 ^ 64) by lia. rewrite Z.mod_add by lia. rewrite Z.mod_small by lia.
  destruct (Z.ltb_spec (2 ^ 64 - Z.of_nat width) (2 ^ 63)); lia.
Qed.
Lemma end_is width base count : (0 < width)%nat -> Z.of_nat width < 2 ^ 63 -> 0 <= count -> count * Z.of_nat width < 2 ^ 63 ->
  it_end width base count = base + count * Z.of_nat width.
Proof.
  intros W B C H. unfold it_end. destruct (Z.eq_dec count 0) as [->|N].
  - change (0 - 1) with (-1). rewrite minus_one_addr by assumption. lia.
  - rewrite size_t_small by nia. rewrite vec_addr_is by nia. lia.
Qed.
Lemma read_ok {A} width n (m : memory A) : (0 < width)%nat -> forall vs d, length vs = n -> Forall (fun v => length v = width) vs -> holds m d (concat vs) ->
  read_all width n m d (d + Z.of_nat n * Z.of_nat width) = Some vs.
Proof.
  intro W. induction n as [|n IH]; intros vs d L F H; destruct vs as [|v vs]; try discriminate L; cbn [read_all]; unfold it_eq.
  - replace (d + Z.of_nat 0 * Z.of_nat width) with d by lia. rewrite Z.eqb_refl. reflexivity.
  - destruct (Z.eqb_spec d (d + Z.of_nat (S n) * Z.of_nat width)); [nia|]. cbn [negb].
    inversion F as [|? ? F1 F2]; subst. cbn [concat] in H. unfold it_value, it_next.
    assert (HV : forall xs ys a, holds m a (xs ++ ys) -> mem_load m a (length xs) = Some xs /\ holds m (a + Z.of_nat (length xs)) ys).
    { induction xs as [|x xs IHx]; intros ys a HH.
      - cbn [length mem_load app] in *. split; [reflexivity|]. rewrite Z.add_0_r. exact HH.
      - assert (H0 := HH 0%nat ltac:(cbn; lia)). rewrite Z.add_0_r in H0. cbn [app nth_error] in H0.
        destruct (IHx ys (a + 1)) as [L1 L2].
        { intros i Hi. specialize (HH (S i)). cbn [app length nth_error] in HH. rewrite <- HH by lia. f_equal. lia. }
        cbn [length mem_load]. rewrite H0, L1. split; [reflexivity|]. replace (a + Z.of_nat (S (length xs))) with (a + 1 + Z.of_nat (length xs)) by lia. exact L2. }
    destruct (HV _ _ _ H) as [L1 L2]. rewrite L1. cbn [obind].
    replace (d + Z.of_nat (S n) * Z.of_nat (length v)) with (d + Z.of_nat (length v) + Z.of_nat n * Z.of_nat (length v)) by lia.
    injection L as L. rewrite (IH vs _ L F2 L2). reflexivity.
Qed.
Lemma holds_app {A} (m : memory A) a xs ys : holds m a (xs ++ ys) <-> holds m a xs /\ holds m (a + Z.of_nat (length xs)) ys.
Proof.
  split.
  - intro H. split; intros i Hi.
    + rewrite H by (rewrite app_length; lia). apply nth_error_app1. exact Hi.
    + replace (a + Z.of_nat (length xs) + Z.of_nat i) with (a + Z.of_nat (length xs + i)) by lia. rewrite H by (rewrite app_length; lia).
      rewrite nth_error_app2 by lia. f_equal. lia.
  - intros [H1 H2] i Hi. rewrite app_length in Hi. destruct (Nat.lt_ge_cases i (length xs)) as [C|C].
    + rewrite H1 by exact C. symmetry. apply nth_error_app1. exact C.
    + rewrite nth_error_app2 by exact C. rewrite <- H2 by lia. f_equal. lia.
Qed.
Lemma holds_load {A} (m : memory A) xs : forall a, holds m a xs -> mem_load m a (length xs) = Some xs.
Proof.
  induction xs as [|x xs IH]; intros a H; [reflexivity|]. cbn [length mem_load].
  assert (H0 := H 0%nat ltac:(cbn; lia)). rewrite Z.add_0_r in H0. cbn [nth_error] in H0. rewrite H0, IH; [reflexivity|].
  intros i Hi. specialize (H (S i) ltac:(cbn; lia)). cbn [nth_error] in H. rewrite <- H. f_equal. lia.
Qed.
Lemma store_replaces {A} (xs : list A) : forall (m : memory A) a old, length old = length xs -> holds m a old ->
  exists m', mem_store m a xs = Some m' /\ replaced m a xs m'.
Proof.
  induction xs as [|x xs IH]; intros m a old L H.
  - exists m. split; [reflexivity|]. split; [intros i Hi; cbn in Hi; lia|reflexivity].
  - destruct old as [|o old]; [discriminate L|]. cbn [mem_store]. unfold mem_write.
    assert (H0 := H 0%nat ltac:(cbn; lia)). rewrite Z.add_0_r in H0. cbn [nth_error] in H0. rewrite H0.
    destruct (IH (mem_set m a x) (a + 1) old) as (m' & E & R1 & R2).
    + injection L as L. exact L.
    + intros i Hi. unfold mem_set. destruct (Z.eqb_spec (a + 1 + Z.of_nat i) a); [lia|].
      specialize (H (S i) ltac:(cbn; lia)). cbn [nth_error] in H. rewrite <- H. f_equal. lia.
    + exists m'. split; [exact E|]. split.
      * intros [|i] Hi.
        -- rewrite Z.add_0_r. rewrite R2 by lia. unfold mem_set. rewrite Z.eqb_refl. reflexivity.
        -- cbn [nth_error]. rewrite <- R1 by (cbn in Hi; lia). f_equal. lia.
      * intros b Hb. cbn [length] in Hb. rewrite R2 by lia. unfold mem_set. destruct (Z.eqb_spec b a); [lia|reflexivity].
Qed.
Lemma concat_len {A} (vs : list (list A)) w : Forall (fun v => length v = w) vs -> length (concat vs) = (length vs * w)%nat.
Proof. induction 1 as [|v vs H F IH]; [reflexivity|]. cbn [concat length]. rewrite app_length, IH, H. lia. Qed.
Lemma update_ok {A} width (f : list A -> list A) n : (0 < width)%nat -> (forall v, length v = width -> length (f v) = width) ->
  forall (m : memory A) vs d, length vs = n -> Forall (fun v => length v = width) vs -> holds m d (concat vs) ->
  exists m', update_all width n f m d (d + Z.of_nat n * Z.of_nat width) = Some m' /\ replaced m d (concat (map f vs)) m'.
Proof.
  intros W Hf. induction n as [|n IH]; intros m vs d L F H; destruct vs as [|v vs]; try discriminate L; cbn [update_all]; unfold it_eq.
  - replace (d + Z.of_nat 0 * Z.of_nat width) with d by lia. rewrite Z.eqb_refl. exists m. split; [reflexivity|]. split; [intros i Hi; cbn in Hi; lia|reflexivity].
  - destruct (Z.eqb_spec d (d + Z.of_nat (S n) * Z.of_nat width)); [nia|]. cbn [negb].
    inversion F as [|? ? F1 F2]; subst. cbn [concat] in H. apply holds_app in H. destruct H as [H1 H2].
    unfold it_value, it_assign, it_next. rewrite (holds_load m v d H1). cbn [obind].
    destruct (store_replaces (f v) m d v ltac:(symmetry; apply Hf; reflexivity) H1) as (m1 & E1 & R1 & R2). rewrite E1. cbn [obind].
    replace (d + Z.of_nat (S n) * Z.of_nat (length v)) with (d + Z.of_nat (length v) + Z.of_nat n * Z.of_nat (length v)) by lia.
    injection L as L. destruct (IH m1 vs (d + Z.of_nat (length v)) L F2) as (m' & E & Q1 & Q2).
    + intros i Hi. rewrite R2 by (rewrite (Hf v eq_refl); lia). apply H2. exact Hi.
    + exists m'. split; [exact E|]. pose proof (Hf v eq_refl) as LF. split.
      * cbn [map concat]. apply holds_app. split.
        -- intros i Hi. rewrite Q2 by lia. apply R1. exact Hi.
        -- rewrite LF. exact Q1.
      * intros a Ha. cbn [map concat] in Ha. rewrite app_length, LF in Ha. rewrite Q2 by lia. apply R2. lia.
Qed.

Lemma C72_iterate_main :
forall (width : nat) (base count : Z),
  (0 < width)%nat -> Z.of_nat width < 2 ^ 63 -> 0 <= count -> count * Z.of_nat width < 2 ^ 63 ->
  exists steps, visited width steps (it_begin width base) (it_end width base count) = Some (tab (Z.to_nat count) (fun i => base + i * Z.of_nat width)).
Proof.
intros width base count W B C H. exists (Z.to_nat count). rewrite begin_is, end_is by assumption.
rewrite <- (Z2Nat.id count) at 2 by exact C. apply visited_ok. exact W.
Qed.

Lemma C72_range_main :
forall (width : nat) (base first last : Z),
  (0 < width)%nat -> 0 <= first <= last + 1 -> (last + 1) * Z.of_nat width < 2 ^ 63 ->
  exists steps, visited width steps (range_begin width base (size_t first)) (range_end width base (size_t last)) =
    Some (tab (Z.to_nat (last + 1 - first)) (fun i => base + (first + i) * Z.of_nat width)).
Proof.
intros width base first last W R H. exists (Z.to_nat (last + 1 - first)). unfold range_begin, range_end.
assert (E : size_t (size_t last + 1) = last + 1) by (unfold size_t; rewrite Z.add_mod_idemp_l by lia; apply Z.mod_small; nia).
rewrite E, (size_t_small first) by nia. rewrite !vec_addr_is by nia.
replace (base + (last + 1) * Z.of_nat width) with (base + first * Z.of_nat width + Z.of_nat (Z.to_nat (last + 1 - first)) * Z.of_nat width) by (rewrite Z2Nat.id by lia; ring).
rewrite visited_ok by exact W. f_equal. apply tab_eq. intros. ring.
Qed.

Lemma C72_read_main :
forall (A : Type) (width : nat) (m : memory A) (base : Z) (vs : list (list A)),
  (0 < width)%nat -> Z.of_nat width < 2 ^ 63 -> Forall (fun v => length v = width) vs -> Z.of_nat (length vs) * Z.of_nat width < 2 ^ 63 ->
  holds m base (concat vs) ->
  exists steps, read_all width steps m (it_begin width base) (it_end width base (Z.of_nat (length vs))) = Some vs.
Proof.
intros A width m base vs W B F H M. exists (length vs). rewrite begin_is, end_is by (try assumption; lia).
apply read_ok; auto.
Qed.

Lemma C72_update_main :
forall (A : Type) (width : nat) (f : list A -> list A) (m : memory A) (base : Z) (vs : list (list A)),
  (0 < width)%nat -> Z.of_nat width < 2 ^ 63 -> Forall (fun v => length v = width) vs -> Z.of_nat (length vs) * Z.of_nat width < 2 ^ 63 ->
  (forall v, length v = width -> length (f v) = width) -> holds m base (concat vs) ->
  exists steps m', update_all width steps f m (it_begin width base) (it_end width base (Z.of_nat (length vs))) = Some m' /\
    replaced m base (concat (map f vs)) m'.
Proof.
intros A width f m base vs W B F H Hf M. exists (length vs). rewrite begin_is, end_is by (try assumption; lia).
apply update_ok; auto.
Qed.

Lemma C72_random_access_main :
forall (A : Type) (width : nat) (m : memory A) (base i j : Z),
  (0 < width)%nat -> 0 <= i -> 0 <= j -> (i + j + 1) * Z.of_nat width < 2 ^ 63 ->
  let at_ := fun n => it_plus width (it_begin width base) n in
  at_ i = base + i * Z.of_nat width /\
  it_difference width (at_ i) (at_ j) = i - j /\
  (it_eq (at_ i) (at_ j) = true <-> i = j) /\ (it_lt (at_ i) (at_ j) = true <-> i < j) /\ (it_le (at_ i) (at_ j) = true <-> i <= j) /\
  it_at width m (at_ i) j = it_value width m (at_ (i + j)) /\
  it_plus width (at_ i) j = at_ (i + j) /\ it_minus width (at_ (i + j)) j = at_ i /\
  it_next width (at_ i) = at_ (i + 1) /\ it_prev width (at_ (i + 1)) = at_ i.
Proof.
intros A width m base i j W I J H at_.
assert (P : forall n, 0 <= n <= i + j + 1 -> at_ n = base + n * Z.of_nat width).
{ intros n Hn. unfold at_, it_plus. rewrite begin_is, offset_small by nia. reflexivity. }
rewrite !P by lia. unfold it_difference, it_eq, it_lt, it_le, it_at, it_value, it_plus, it_minus, it_next, it_prev. rewrite !offset_small by nia.
replace (base + i * Z.of_nat width - (base + j * Z.of_nat width)) with ((i - j) * Z.of_nat width) by ring. rewrite Z.div_mul by lia.
split; [reflexivity|]. split; [reflexivity|]. split; [rewrite Z.eqb_eq; nia|]. split; [rewrite Z.ltb_lt; nia|]. split; [rewrite Z.leb_le; nia|].
split; [f_equal; ring|]. repeat split; ring.
Qed.

Lemma C72_iterate_2d_main :
forall (k width rows : nat) (base columns : Z),
  width = (2 ^ k)%nat -> Z.of_nat width < 2 ^ 62 -> 0 <= columns < 2 ^ 62 -> Z.of_nat rows * padded_size width columns < 2 ^ 63 ->
  exists steps, visited width steps (it_begin width base) (it_end width base (vectors_count_2d width (Z.of_nat rows) columns)) =
    Some (concat (tab rows (fun x => tab (Z.to_nat (vectors_count width columns)) (fun j => row_base width base columns x + j * Z.of_nat width)))).
Proof.
intros k width rows base columns Hk Hw Hc H.
destruct (padded_facts k width columns Hk Hw Hc) as (PE & PB & PC & _).
assert (W : (0 < width)%nat) by (rewrite Hk; clear; induction k; cbn; lia).
assert (CE : vectors_count_2d width (Z.of_nat rows) columns = Z.of_nat (rows * Z.to_nat (vectors_count width columns))) by (unfold vectors_count_2d; nia).
exists (rows * Z.to_nat (vectors_count width columns))%nat. rewrite CE, begin_is, end_is by nia.
rewrite visited_ok by exact W. f_equal. unfold row_base. rewrite PE. set (c := Z.to_nat (vectors_count width columns)).
replace (vectors_count width columns) with (Z.of_nat c) by (unfold c; lia). clear. revert base. induction rows as [|r IH]; intro base; [reflexivity|].
rewrite tab_succ. cbn [concat Nat.mul]. rewrite tab_app. f_equal.
- apply tab_eq. intros. ring.
- transitivity (tab (r * c) (fun i => base + Z.of_nat c * Z.of_nat width + i * Z.of_nat width)); [apply tab_eq; intros; ring|].
  rewrite IH. f_equal. apply tab_eq. intros x _. apply tab_eq. intros j _. ring.
Qed.
