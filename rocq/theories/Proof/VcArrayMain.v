(** Vc::array (proofs). *)
From Coq Require Import ZArith List Bool Lia.
From Verif.Spec Require Import MemSpec ArraySpec.
From Verif.Model Require Import Mem SimdArray VcArray.
Import ListNotations.
Local Open Scope Z_scope.

Section P.
  Context {A : Type}.
  Lemma holds_cons (m : memory A) a x xs : holds m a (x :: xs) <-> m a = Some x /\ holds m (a + 1) xs.
  Proof.
    split.
    - intro H. split; [specialize (H 0%nat ltac:(cbn; lia)); rewrite Z.add_0_r in H; exact H|].
      intros i Hi. specialize (H (S i) ltac:(cbn; lia)). cbn [nth_error] in H. rewrite <- H. f_equal. lia.
    - intros [H0 H] [|i] Hi; cbn [nth_error]; [rewrite Z.add_0_r; exact H0|]. rewrite <- H by (cbn in Hi; lia). f_equal. lia.
  Qed.
  Lemma holds_ext (m m' : memory A) a xs : (forall b, a <= b < a + Z.of_nat (length xs) -> m' b = m b) -> holds m a xs -> holds m' a xs.
  Proof. intros E H i Hi. rewrite E by lia. apply H. exact Hi. Qed.
  Lemma fill_ok u n : forall (m : memory A) a old, length old = n -> holds m a old -> exists m', fill_n m a n u = Some m' /\ replaced m a (repeat u n) m'.
  Proof.
    induction n as [|n IH]; intros m a old L H; destruct old as [|o old]; try discriminate L.
    - exists m. split; [reflexivity|]. split; [intros i Hi; cbn in Hi; lia|reflexivity].
    - apply holds_cons in H. destruct H as [H0 H]. cbn [fill_n]. unfold mem_write. rewrite H0. cbn [obind]. injection L as L.
      destruct (IH (mem_set m a u) (a + 1) old L) as (m' & E & R1 & R2).
      { apply (holds_ext m); [|exact H]. intros b Hb. unfold mem_set. destruct (Z.eqb_spec b a); [lia|reflexivity]. }
      exists m'. split; [exact E|]. cbn [repeat]. split.
      + apply holds_cons. split; [|exact R1]. rewrite R2 by lia. unfold mem_set. rewrite Z.eqb_refl. reflexivity.
      + intros b Hb. cbn [length] in Hb. rewrite R2 by lia. unfold mem_set. destruct (Z.eqb_spec b a); [lia|reflexivity].
  Qed.
  Lemma swap_ok n : forall (m : memory A) a b xs ys, length xs = n -> length ys = n -> (a + Z.of_nat n <= b \/ b + Z.of_nat n <= a) -> holds m a xs -> holds m b ys ->
    exists m', swap_ranges m n a b = Some m' /\ holds m' a ys /\ holds m' b xs /\
      forall c, ~ a <= c < a + Z.of_nat n -> ~ b <= c < b + Z.of_nat n -> m' c = m c.
  Proof.
    induction n as [|n IH]; intros m a b xs ys LX LY D HX HY; destruct xs as [|x xs]; try discriminate LX; destruct ys as [|y ys]; try discriminate LY.
    - exists m. split; [reflexivity|]. repeat split; auto; intros i Hi; cbn in Hi; lia.
    - apply holds_cons in HX. destruct HX as [X0 HX]. apply holds_cons in HY. destruct HY as [Y0 HY]. injection LX as LX. injection LY as LY.
      cbn [swap_ranges]. rewrite X0, Y0. cbn [obind]. unfold mem_write. rewrite X0. cbn [obind]. unfold mem_set at 1. destruct (Z.eqb_spec b a); [lia|]. rewrite Y0. cbn [obind].
      set (m2 := mem_set (mem_set m a y) b x). assert (Q : forall c, c <> a -> c <> b -> m2 c = m c) by (intros c C1 C2; unfold m2, mem_set; destruct (Z.eqb_spec c b); [lia|]; destruct (Z.eqb_spec c a); [lia|reflexivity]).
      destruct (IH m2 (a + 1) (b + 1) xs ys LX LY ltac:(lia)) as (m' & E & R1 & R2 & R3).
      { apply (holds_ext m); [|exact HX]. intros c Hc. apply Q; lia. }
      { apply (holds_ext m); [|exact HY]. intros c Hc. apply Q; lia. }
      exists m'. split; [exact E|]. split; [|split].
      + apply holds_cons. split; [|exact R1]. rewrite R3 by lia. unfold m2, mem_set. destruct (Z.eqb_spec a b); [lia|]. rewrite Z.eqb_refl. reflexivity.
      + apply holds_cons. split; [|exact R2]. rewrite R3 by lia. unfold m2, mem_set. rewrite Z.eqb_refl. reflexivity.
      + intros c C1 C2. rewrite R3 by lia. apply Q; lia.
  Qed.
  Lemma self_swap_ok n : forall (m : memory A) a xs, length xs = n -> holds m a xs -> exists m', swap_ranges m n a a = Some m' /\ forall c, m' c = m c.
  Proof.
    induction n as [|n IH]; intros m a xs L H; destruct xs as [|x xs]; try discriminate L.
    - exists m. split; reflexivity.
    - apply holds_cons in H. destruct H as [X0 H]. injection L as L. cbn [swap_ranges]. rewrite X0. cbn [obind]. unfold mem_write. rewrite X0. cbn [obind]. unfold mem_set at 1. rewrite Z.eqb_refl. cbn [obind].
      set (m2 := mem_set (mem_set m a x) a x). assert (Q : forall c, m2 c = m c) by (intro c; unfold m2, mem_set; destruct (Z.eqb_spec c a); [subst; symmetry; exact X0|reflexivity]).
      destruct (IH m2 (a + 1) xs L) as (m' & E & R). { apply (holds_ext m); [|exact H]. intros; apply Q. }
      exists m'. split; [exact E|]. intro c. rewrite R. apply Q.
  Qed.
  Lemma equal_ok eqb (m : memory A) : (forall x y, eqb x y = true <-> x = y) -> forall xs a b ys, length xs = length ys -> holds m a xs -> holds m b ys ->
    exists r, std_equal eqb m (length xs) a b = Some r /\ (r = true <-> xs = ys).
  Proof.
    intro E. induction xs as [|x xs IH]; intros a b ys L HX HY; destruct ys as [|y ys]; try discriminate L.
    - exists true. split; [reflexivity|]. split; reflexivity.
    - apply holds_cons in HX. destruct HX as [X0 HX]. apply holds_cons in HY. destruct HY as [Y0 HY]. injection L as L. cbn [length std_equal]. rewrite X0, Y0. cbn [obind].
      destruct (eqb x y) eqn:Q.
      + apply E in Q. subst y. destruct (IH _ _ _ L HX HY) as (r & R1 & R2). exists r. split; [exact R1|]. rewrite R2. split; congruence.
      + exists false. split; [reflexivity|]. split; [discriminate|]. intro C. injection C as -> _. assert (eqb y y = true) by (apply E; reflexivity). congruence.
  Qed.
  Lemma less_ok ltb (m : memory A) : (forall x y, ltb x y = true -> ltb y x = false) -> forall xs a b ys, length xs = length ys -> holds m a xs -> holds m b ys ->
    exists r, lexicographical_compare ltb m (length xs) a b = Some r /\ (r = true <-> lexicographically_less ltb xs ys).
  Proof.
    intro AS. induction xs as [|x xs IH]; intros a b ys L HX HY; destruct ys as [|y ys]; try discriminate L.
    - exists false. split; [reflexivity|]. split; [discriminate|]. intros ([|? ?] & ? & ? & ? & ? & ? & E & _); discriminate E.
    - apply holds_cons in HX. destruct HX as [X0 HX]. apply holds_cons in HY. destruct HY as [Y0 HY]. injection L as L. cbn [length lexicographical_compare]. rewrite X0, Y0. cbn [obind].
      destruct (ltb x y) eqn:Q; [|destruct (ltb y x) eqn:Q'].
      + exists true. split; [reflexivity|]. split; [intros _|reflexivity]. exists [], [], x, y, xs, ys. repeat split; auto.
      + exists false. split; [reflexivity|]. split; [discriminate|]. intros ([|p pre] & [|p' pre'] & x1 & y1 & post & post' & E1 & E2 & L' & Q1 & F); try discriminate L'.
        * injection E1 as -> _. injection E2 as -> _. congruence.
        * injection E1 as -> _. injection E2 as -> _. inversion F as [|? ? ? ? (F1 & F2)]; subst. congruence.
      + destruct (IH _ _ _ L HX HY) as (r & R1 & R2). exists r. split; [exact R1|]. rewrite R2. split.
        * intros (pre & pre' & x1 & y1 & post & post' & -> & -> & L' & Q1 & F). exists (x :: pre), (y :: pre'), x1, y1, post, post'. repeat split; auto; cbn; lia.
        * intros ([|p pre] & [|p' pre'] & x1 & y1 & post & post' & E1 & E2 & L' & Q1 & F); try discriminate L'.
          -- injection E1 as -> _. injection E2 as -> _. congruence.
          -- injection E1 as -> ->. injection E2 as -> ->. inversion F; subst. exists pre, pre', x1, y1, post, post'. injection L' as L'. repeat split; auto.
  Qed.
End P.

Lemma C75_at_main :
forall Size base n, 0 <= n < 2 ^ 64 ->
  (n < Z.of_nat Size -> arr_at Size base n = inl (arr_index base n)) /\ (Z.of_nat Size <= n -> arr_at Size base n = inr tt) /\
  ((0 < Size)%nat -> arr_at Size base 0 = inl (arr_front base) /\ arr_at Size base (Z.of_nat Size - 1) = inl (arr_back Size base)) /\
  arr_end Size base - arr_begin base = Z.of_nat Size /\ arr_begin base = arr_index base 0.
Proof.
intros Size base n N. unfold arr_at, arr_index, arr_front, arr_back, arr_end, arr_begin. rewrite !Z.geb_leb.
split; [intro H; destruct (Z.leb_spec (Z.of_nat Size) n); [lia|reflexivity]|]. split; [intro H; destruct (Z.leb_spec (Z.of_nat Size) n); [reflexivity|lia]|].
split; [intro H; destruct (Z.leb_spec (Z.of_nat Size) 0), (Z.leb_spec (Z.of_nat Size) (Z.of_nat Size - 1)), (Z.ltb_spec 0 (Z.of_nat Size)); try lia; split; f_equal; lia|]. lia.
Qed.

Lemma C75_fill_main :
forall (A : Type) Size (m : memory A) base (old : list A) u, length old = Size -> holds m base old ->
  exists m', arr_fill Size m base u = Some m' /\ replaced m base (repeat u Size) m'.
Proof.
intros A Size m base old u L H. exact (fill_ok u Size m base old L H).
Qed.

Lemma C75_swap_main :
forall (A : Type) Size (m : memory A) x y (xs ys : list A), length xs = Size -> length ys = Size -> holds m x xs -> holds m y ys ->
  (x + Z.of_nat Size <= y \/ y + Z.of_nat Size <= x ->
    exists m', arr_swap Size m x y = Some m' /\ holds m' x ys /\ holds m' y xs /\
      forall c, ~ x <= c < x + Z.of_nat Size -> ~ y <= c < y + Z.of_nat Size -> m' c = m c) /\
  exists m', arr_swap Size m x x = Some m' /\ forall c, m' c = m c.
Proof.
intros A Size m x y xs ys LX LY HX HY. split; [intro D; exact (swap_ok Size m x y xs ys LX LY D HX HY)|exact (self_swap_ok Size m x xs LX HX)].
Qed.

Lemma C75_compare_main :
forall (A : Type) Size (eqb ltb : A -> A -> bool) (m : memory A) x y (xs ys : list A),
  (forall a b, eqb a b = true <-> a = b) -> (forall a b, ltb a b = true -> ltb b a = false) ->
  length xs = Size -> length ys = Size -> holds m x xs -> holds m y ys ->
  exists eq ne lt gt le ge,
    arr_eq Size eqb m x y = Some eq /\ arr_ne Size eqb m x y = Some ne /\ arr_lt Size ltb m x y = Some lt /\ arr_gt Size ltb m x y = Some gt /\
    arr_le Size ltb m x y = Some le /\ arr_ge Size ltb m x y = Some ge /\
    (eq = true <-> xs = ys) /\ (ne = true <-> xs <> ys) /\ (lt = true <-> lexicographically_less ltb xs ys) /\ (gt = true <-> lexicographically_less ltb ys xs) /\
    (le = true <-> ~ lexicographically_less ltb ys xs) /\ (ge = true <-> ~ lexicographically_less ltb xs ys).
Proof.
intros A Size eqb ltb m x y xs ys E AS LX LY HX HY. subst Size.
destruct (equal_ok eqb m E xs x y ys ltac:(lia) HX HY) as (eq & E1 & E2). destruct (less_ok ltb m AS xs x y ys ltac:(lia) HX HY) as (lt & L1 & L2).
destruct (less_ok ltb m AS ys y x xs ltac:(lia) HY HX) as (gt & G1 & G2). rewrite LY in G1.
exists eq, (negb eq), lt, gt, (negb gt), (negb lt). unfold arr_eq, arr_ne, arr_lt, arr_gt, arr_le, arr_ge. unfold arr_eq, arr_lt. rewrite E1, L1, G1. cbn [option_map].
repeat match goal with |- _ /\ _ => split end; try reflexivity; try assumption.
- rewrite <- E2. destruct eq; cbn; intuition discriminate.
- rewrite <- G2. destruct gt; cbn; intuition discriminate.
- rewrite <- L2. destruct lt; cbn; intuition discriminate.
Qed.
