(** The zero-one principle for the sorting networks of SortNet.v. *)
From Coq Require Import ZArith List Bool Lia Permutation.
From Verif.Spec Require Import Seq.
From Verif.Model Require Import SseReg SseMove SortNet.
Import ListNotations.

Lemma map_repeat {A C} (f : A -> C) a n : map f (repeat a n) = repeat (f a) n.
Proof. induction n; cbn; auto. now rewrite IHn. Qed.

(** * Naturality of the data movement *)
Section Nat.
  Context {A C : Type} (f : A -> C).

  Lemma map_flat_map {I} (g : I -> list A) l : map f (flat_map g l) = flat_map (fun i => map f (g i)) l.
  Proof. induction l; cbn; auto. now rewrite map_app, IHl. Qed.
  Lemma nat_lane w r i : map f (lane w r i) = lane w (map f r) i.
  Proof. unfold lane. now rewrite <- firstn_map, <- skipn_map. Qed.
  Lemma nat_unpacklo u w a b : map f (unpacklo u w a b) = unpacklo u w (map f a) (map f b).
  Proof.
    unfold unpacklo. rewrite map_flat_map. apply flat_map_ext. intros. now rewrite map_app, !nat_lane.
  Qed.
  Lemma nat_unpackhi u w a b : map f (unpackhi u w a b) = unpackhi u w (map f a) (map f b).
  Proof.
    unfold unpackhi. rewrite map_flat_map. apply flat_map_ext. intros. now rewrite map_app, !nat_lane.
  Qed.
  Lemma nat_shuffle_epi32 u r i : map f (shuffle_epi32 u r i) = shuffle_epi32 u (map f r) i.
  Proof. unfold shuffle_epi32. rewrite map_flat_map. apply flat_map_ext. intros. apply nat_lane. Qed.
  Lemma nat_shuffle_ps u a b i : map f (shuffle_ps u a b i) = shuffle_ps u (map f a) (map f b) i.
  Proof. unfold shuffle_ps. now rewrite !map_app, !nat_lane. Qed.
  Lemma nat_shuffle_pd u a b i : map f (shuffle_pd u a b i) = shuffle_pd u (map f a) (map f b) i.
  Proof. unfold shuffle_pd. now rewrite !map_app, !nat_lane. Qed.
  Lemma nat_shufflelo u r i : map f (shufflelo_epi16 u r i) = shufflelo_epi16 u (map f r) i.
  Proof.
    unfold shufflelo_epi16. rewrite map_app, map_flat_map, skipn_map. f_equal. apply flat_map_ext. intros. apply nat_lane.
  Qed.
  Lemma nat_shufflehi u r i : map f (shufflehi_epi16 u r i) = shufflehi_epi16 u (map f r) i.
  Proof.
    unfold shufflehi_epi16. rewrite map_app, map_flat_map, firstn_map. f_equal. apply flat_map_ext. intros. apply nat_lane.
  Qed.
  Lemma nat_blend u w a b i : map f (blend u w a b i) = blend u w (map f a) (map f b) i.
  Proof.
    unfold blend. rewrite map_flat_map. apply flat_map_ext. intros. rewrite nat_lane.
    now destruct (Nat.odd _).
  Qed.
  Lemma nat_srli u z r k : map f (srli_si128 u z r k) = srli_si128 u (f z) (map f r) k.
  Proof.
    unfold srli_si128, setzero. destruct (Nat.ltb 15 k); [apply map_repeat|].
    now rewrite map_app, map_repeat, skipn_map.
  Qed.
  Lemma nat_slli u z r k : map f (slli_si128 u z r k) = slli_si128 u (f z) (map f r) k.
  Proof.
    unfold slli_si128, setzero. destruct (Nat.ltb 15 k); [apply map_repeat|].
    now rewrite map_app, map_repeat, firstn_map.
  Qed.
  Lemma nat_permute8 u a b c d e g h i r : map f (mem_permute8 u a b c d e g h i r) = mem_permute8 u a b c d e g h i (map f r).
  Proof.
    unfold mem_permute8. destruct (negb _); destruct (negb _); now rewrite ?nat_shufflehi, ?nat_shufflelo.
  Qed.
  Lemma nat_permuteLo u a b c d r : map f (mem_permuteLo u a b c d r) = mem_permuteLo u a b c d (map f r).
  Proof. apply nat_shufflelo. Qed.
  Lemma nat_permuteHi u a b c d r : map f (mem_permuteHi u a b c d r) = mem_permuteHi u a b c d (map f r).
  Proof. apply nat_shufflehi. Qed.
  Lemma nat_permute_ps u a b c d r : map f (mem_permute_ps u a b c d r) = mem_permute_ps u a b c d (map f r).
  Proof. apply nat_shuffle_ps. Qed.
  Lemma nat_permute_epi32 u a b c d r : map f (mem_permute_epi32 u a b c d r) = mem_permute_epi32 u a b c d (map f r).
  Proof. apply nat_shuffle_epi32. Qed.
  Lemma nat_shuffle4 u a b c d r s : map f (mem_shuffle4 u a b c d r s) = mem_shuffle4 u a b c d (map f r) (map f s).
  Proof. apply nat_shuffle_ps. Qed.
  Lemma nat_blend8 u a b c d e g h i r s : map f (mem_blend8 u a b c d e g h i r s) = mem_blend8 u a b c d e g h i (map f r) (map f s).
  Proof. apply nat_blend. Qed.
  Lemma nat_blend4 u a b c d r s : map f (mem_blend4 u a b c d r s) = mem_blend4 u a b c d (map f r) (map f s).
  Proof. apply nat_blend. Qed.
  Lemma nat_movehl u a b : map f (movehl_ps u a b) = movehl_ps u (map f a) (map f b).
  Proof. unfold movehl_ps. now rewrite map_app, <- !skipn_map. Qed.

  Variables (g : A -> A -> A) (g' : C -> C -> C).
  Hypothesis Hg : forall x y, f (g x y) = g' (f x) (f y).
  Lemma nat_map2 : forall xs ys, map f (map2 g xs ys) = map2 g' (map f xs) (map f ys).
  Proof. induction xs as [|x xs IH]; intros [|y ys]; cbn; auto. now rewrite IH, Hg. Qed.
  Lemma nat_low_sd xs ys : map f (low_sd g xs ys) = low_sd g' (map f xs) (map f ys).
  Proof. unfold low_sd. now rewrite map_app, <- firstn_map, <- skipn_map, nat_map2. Qed.
End Nat.

Lemma bnd_map {A C} (f : A -> C) (e : list A) (b : list A -> list A) (e' : list C) (b' : list C -> list C) :
  map f e = e' -> (forall v, map f (b v) = b' (map f v)) -> map f (bnd e b) = bnd e' b'.
Proof. intros <- H. apply H. Qed.

Ltac nat_rw Hn Hx := repeat first
  [ rewrite map_app | rewrite <- firstn_map | rewrite <- skipn_map | rewrite nat_unpacklo | rewrite nat_unpackhi
  | rewrite nat_shuffle_epi32 | rewrite nat_shuffle_ps | rewrite nat_shuffle_pd | rewrite nat_shufflelo | rewrite nat_shufflehi
  | rewrite nat_blend | rewrite nat_srli | rewrite nat_slli | rewrite nat_permute8 | rewrite nat_permuteLo | rewrite nat_permuteHi
  | rewrite nat_permute_ps | rewrite nat_permute_epi32 | rewrite nat_shuffle4 | rewrite nat_blend8 | rewrite nat_blend4
  | rewrite nat_movehl | rewrite (nat_low_sd _ _ _ Hn) | rewrite (nat_low_sd _ _ _ Hx)
  | rewrite (nat_map2 _ _ _ Hn) | rewrite (nat_map2 _ _ _ Hx) ].
Ltac net_hom Hn Hx :=
  repeat match goal with
  | |- map _ (bnd _ _) = bnd _ _ => apply bnd_map; [nat_rw Hn Hx; reflexivity | intros ?v]
  end; nat_rw Hn Hx; try reflexivity.

Section Hom.
  Context {A C : Type} (f : A -> C) (mn mx : A -> A -> A) (mn' mx' : C -> C -> C).
  Hypothesis Hn : forall x y, f (mn x y) = mn' (f x) (f y).
  Hypothesis Hx : forall x y, f (mx x y) = mx' (f x) (f y).

  Lemma hom_sse16 zero x : map f (sse_sorted16 zero mn mx x) = sse_sorted16 (f zero) mn' mx' (map f x).
  Proof. unfold sse_sorted16. net_hom Hn Hx. Qed.
  Lemma hom_sse32 x : map f (sse_sorted32 mn mx x) = sse_sorted32 mn' mx' (map f x).
  Proof. unfold sse_sorted32. net_hom Hn Hx. Qed.
  Lemma hom_sse_ps x : map f (sse_sorted_ps mn mx x) = sse_sorted_ps mn' mx' (map f x).
  Proof. unfold sse_sorted_ps. net_hom Hn Hx. Qed.
  Lemma hom_sse_pd x : map f (sse_sorted_pd mn mx x) = sse_sorted_pd mn' mx' (map f x).
  Proof. unfold sse_sorted_pd. net_hom Hn Hx. Qed.
  Lemma hom_avx16 x : map f (avx_sorted16 mn mx x) = avx_sorted16 mn' mx' (map f x).
  Proof. unfold avx_sorted16, bl, bl2, bl4. net_hom Hn Hx. Qed.
  Lemma hom_phase1 x : avx_sorted32_phase1 mn' mx' (map f x) =
    (map f (fst (avx_sorted32_phase1 mn mx x)), map f (snd (avx_sorted32_phase1 mn mx x))).
  Proof. unfold avx_sorted32_phase1, bnd. cbn [fst snd]. nat_rw Hn Hx. reflexivity. Qed.
  Lemma hom_avx_pd x : map f (avx_sorted_pd mn mx x) = avx_sorted_pd mn' mx' (map f x).
  Proof. unfold avx_sorted_pd. net_hom Hn Hx. Qed.
  Lemma hom_merge a b : map f (avx_sorted32_merge mn mx a b) = avx_sorted32_merge mn' mx' (map f a) (map f b).
  Proof. unfold avx_sorted32_merge. net_hom Hn Hx. Qed.
End Hom.

(** * Checking a network on all booleans at once *)

(** Boolean functions of a list of booleans, as decision trees. *)
Inductive tt := TL (b : bool) | TN (l r : tt).
Fixpoint tget (t : tt) (bs : list bool) : bool :=
  match t, bs with
  | TL b, _ => b
  | TN l r, [] => false
  | TN l r, b :: bs' => tget (if b then r else l) bs'
  end.
Fixpoint tand (s t : tt) : tt :=
  match s, t with
  | TL false, _ => TL false
  | TL true, _ => t
  | TN _ _, TL false => TL false
  | TN _ _, TL true => s
  | TN a b, TN c d => TN (tand a c) (tand b d)
  end.
Fixpoint tor (s t : tt) : tt :=
  match s, t with
  | TL true, _ => TL true
  | TL false, _ => t
  | TN _ _, TL true => TL true
  | TN _ _, TL false => s
  | TN a b, TN c d => TN (tor a c) (tor b d)
  end.
Fixpoint tvar (i : nat) : tt :=
  match i with O => TN (TL false) (TL true) | S i' => let t := tvar i' in TN t t end.
Definition tsub (b : bool) (t : tt) : tt := match t with TL c => TL c | TN l r => if b then r else l end.

Lemma tget_and : forall s t bs, tget (tand s t) bs = tget s bs && tget t bs.
Proof.
  induction s as [[]|a IHa b IHb]; intros t bs; cbn; auto.
  destruct t as [[]|c d]; cbn; destruct bs as [|x bs]; rewrite ?andb_true_r, ?andb_false_r; auto.
  destruct x; auto.
Qed.
Lemma tget_or : forall s t bs, tget (tor s t) bs = tget s bs || tget t bs.
Proof.
  induction s as [[]|a IHa b IHb]; intros t bs; cbn; auto.
  destruct t as [[]|c d]; cbn; destruct bs as [|x bs]; rewrite ?orb_true_r, ?orb_false_r; auto.
  destruct x; auto.
Qed.
Lemma tget_var : forall i bs, i < length bs -> tget (tvar i) bs = nth i bs false.
Proof.
  induction i as [|i IH]; intros [|b bs] H; cbn in *; try lia; [now destruct b|].
  replace (if b then tvar i else tvar i) with (tvar i) by (now destruct b). apply IH. lia.
Qed.
Lemma tget_sub b t bs : tget (tsub b t) bs = tget t (b :: bs).
Proof. destruct t; cbn; auto. Qed.

Fixpoint tall (n : nat) (P : list bool -> list bool -> bool) (pre : list bool) (ts : list tt) : bool :=
  match n with
  | O => P (rev pre) (map (fun t => tget t []) ts)
  | S n' => tall n' P (false :: pre) (map (tsub false) ts) && tall n' P (true :: pre) (map (tsub true) ts)
  end.
Lemma tall_ok P : forall n pre ts, tall n P pre ts = true ->
  forall bs, length bs = n -> P (rev pre ++ bs) (map (fun t => tget t bs) ts) = true.
Proof.
  induction n as [|n IH]; intros pre ts H bs Hb.
  - destruct bs; [|discriminate Hb]. now rewrite app_nil_r.
  - destruct bs as [|b bs]; [discriminate Hb|]. cbn in H. apply andb_prop in H. destruct H as [H0 H1].
    assert (Q : tall n P (b :: pre) (map (tsub b) ts) = true) by (now destruct b).
    specialize (IH _ _ Q bs ltac:(cbn in Hb; lia)). cbn [rev] in IH. rewrite <- app_assoc in IH. cbn [app] in IH.
    rewrite map_map in IH. rewrite <- IH. f_equal. apply map_ext. intros t. now rewrite tget_sub.
Qed.

Lemma vars_get n bs : length bs = n -> map (fun t => tget t bs) (map tvar (seq 0 n)) = bs.
Proof.
  intros H. rewrite map_map. apply nth_ext with (d := false) (d' := false).
  - rewrite map_length, seq_length. auto.
  - intros i Hi. rewrite map_length, seq_length in Hi.
    rewrite nth_indep with (d' := tget (tvar 0) bs) by (rewrite map_length, seq_length; lia).
    rewrite map_nth with (f := fun i => tget (tvar i) bs). rewrite seq_nth by lia. apply tget_var. lia.
Qed.

(** A network: polymorphic in the element type, natural in it. *)
Definition network := forall A : Type, A -> (A -> A -> A) -> (A -> A -> A) -> list A -> list A.
Definition net_natural (net : network) : Prop :=
  forall A C (f : A -> C) mn mx mn' mx',
    (forall x y, f (mn x y) = mn' (f x) (f y)) -> (forall x y, f (mx x y) = mx' (f x) (f y)) ->
    forall z xs, map f (net A z mn mx xs) = net C (f z) mn' mx' (map f xs).
Definition net_check (n : nat) (net : network) (P : list bool -> list bool -> bool) : bool :=
  tall n P [] (net tt (TL false) tand tor (map tvar (seq 0 n))) &&
  tall n P [] (net tt (TL true) tand tor (map tvar (seq 0 n))).

Lemma net_check_ok n net P : net_natural net -> net_check n net P = true ->
  forall z bs, length bs = n -> P bs (net bool z andb orb bs) = true.
Proof.
  intros Hn Hc z bs Hb. unfold net_check in Hc. apply andb_prop in Hc.
  assert (Q : tall n P [] (net tt (TL z) tand tor (map tvar (seq 0 n))) = true) by (destruct z; tauto).
  pose proof (tall_ok P n [] _ Q bs Hb) as R. cbn [rev app] in R.
  rewrite (Hn tt bool (fun t => tget t bs) tand tor andb orb) in R;
    [|intros; apply tget_and|intros; apply tget_or].
  rewrite vars_get in R by auto. exact R.
Qed.

(** Counting. *)
Definition count (bs : list bool) : nat := length (filter (fun b => b) bs).
(** entry i of the output is never larger than entry j for the pairs; same number of ones *)
Fixpoint ascending (bs : list bool) : bool :=
  match bs with [] => true | b :: bs' => (negb b || forallb (fun c => c) bs') && ascending bs' end.
Definition segments_ok (segs : list (nat * nat)) (pre out : list bool) : bool :=
  forallb (fun s => ascending (firstn (snd s) (skipn (fst s) out))) segs && Nat.eqb (count out) (count pre).

Section Threshold.
  Context {A : Type} (le : A -> A -> bool) (mn mx : A -> A -> A).
  Hypothesis Hle : total_order le.
  Hypothesis Hmn : forall x y, mn x y = if le x y then x else y.
  Hypothesis Hmx : forall x y, mx x y = if le x y then y else x.

  Let gt t x := negb (le x t).
  Let ge t x := le t x.

  Lemma gt_mn t x y : gt t (mn x y) = gt t x && gt t y.
  Proof.
    unfold gt. rewrite Hmn. destruct Hle as [T R S].
    destruct (le x y) eqn:E; destruct (le x t) eqn:E1; destruct (le y t) eqn:E2; auto; exfalso.
    - rewrite (R x y t E E2) in E1. discriminate E1.
    - destruct (T x y) as [Q|Q]; [rewrite Q in E; discriminate E|]. rewrite (R y x t Q E1) in E2. discriminate E2.
  Qed.
  Lemma gt_mx t x y : gt t (mx x y) = gt t x || gt t y.
  Proof.
    unfold gt. rewrite Hmx. destruct Hle as [T R S].
    destruct (le x y) eqn:E; destruct (le x t) eqn:E1; destruct (le y t) eqn:E2; auto; exfalso.
    - rewrite (R x y t E E2) in E1. discriminate E1.
    - destruct (T x y) as [Q|Q]; [rewrite Q in E; discriminate E|]. rewrite (R y x t Q E1) in E2. discriminate E2.
  Qed.
  Lemma ge_mn t x y : ge t (mn x y) = ge t x && ge t y.
  Proof.
    unfold ge. rewrite Hmn. destruct Hle as [T R S].
    destruct (le x y) eqn:E; destruct (le t x) eqn:E1; destruct (le t y) eqn:E2; auto; exfalso.
    - rewrite (R t x y E1 E) in E2. discriminate E2.
    - destruct (T x y) as [Q|Q]; [rewrite Q in E; discriminate E|]. rewrite (R t y x E2 Q) in E1. discriminate E1.
  Qed.
  Lemma ge_mx t x y : ge t (mx x y) = ge t x || ge t y.
  Proof.
    unfold ge. rewrite Hmx. destruct Hle as [T R S].
    destruct (le x y) eqn:E; destruct (le t x) eqn:E1; destruct (le t y) eqn:E2; auto; exfalso.
    - rewrite (R t x y E1 E) in E2. discriminate E2.
    - destruct (T x y) as [Q|Q]; [rewrite Q in E; discriminate E|]. rewrite (R t y x E2 Q) in E1. discriminate E1.
  Qed.

  Lemma asc_sorted out : (forall t, ascending (map (gt t) out) = true) -> sorted_spec le out.
  Proof.
    induction out as [|x out IH]; intros H; cbn; auto. split.
    - intros y Hy. specialize (H y). cbn in H. apply andb_prop in H. destruct H as [H _].
      unfold gt in H. rewrite negb_involutive in H. apply orb_prop in H. destruct H as [H|H]; auto.
      rewrite forallb_forall in H. specialize (H (gt y y) (in_map _ _ _ Hy)). unfold gt in H.
      destruct (to_total le Hle y y) as [Q|Q]; rewrite Q in H; discriminate H.
    - apply IH. intros t. specialize (H t). cbn in H. apply andb_prop in H. tauto.
  Qed.

  Lemma eq_dec_of : forall x y : A, {x = y} + {x <> y}.
  Proof.
    intros x y. destruct (le x y) eqn:E1; [destruct (le y x) eqn:E2|].
    - left. now apply (to_antisym le Hle).
    - right. intros ->. congruence.
    - right. intros ->. destruct (to_total le Hle y y); congruence.
  Qed.

  Lemma count_map_gt_ge v xs : (count (map (ge v) xs) = count (map (gt v) xs) + count_occ eq_dec_of xs v)%nat.
  Proof.
    unfold count. induction xs as [|x xs IH]; cbn; auto. unfold ge at 1, gt at 1.
    destruct (eq_dec_of x v) as [->|N].
    - destruct (to_total le Hle v v) as [Q|Q]; rewrite Q; cbn; unfold gt in *; lia.
    - destruct (le v x) eqn:E1; destruct (le x v) eqn:E2; cbn; unfold gt in *; try lia; exfalso.
      + apply N. now apply (to_antisym le Hle).
      + destruct (to_total le Hle x v); congruence.
  Qed.

  Lemma counts_perm xs ys :
    (forall t, count (map (gt t) xs) = count (map (gt t) ys)) ->
    (forall t, count (map (ge t) xs) = count (map (ge t) ys)) -> Permutation xs ys.
  Proof.
    intros H1 H2. apply (Permutation_count_occ eq_dec_of). intros v.
    pose proof (count_map_gt_ge v xs). pose proof (count_map_gt_ge v ys). specialize (H1 v). specialize (H2 v). lia.
  Qed.

  Theorem zero_one n net segs : net_natural net -> net_check n net (segments_ok segs) = true ->
    forall z xs, length xs = n ->
      (forall s, In s segs -> sorted_spec le (firstn (snd s) (skipn (fst s) (net A z mn mx xs)))) /\
      Permutation (net A z mn mx xs) xs.
  Proof.
    intros Hnat Hc z xs Hx.
    assert (G : forall t, segments_ok segs (map (gt t) xs) (map (gt t) (net A z mn mx xs)) = true).
    { intros t. rewrite (Hnat A bool (gt t) mn mx andb orb); [|apply gt_mn|apply gt_mx].
      apply (net_check_ok n net); auto. now rewrite map_length. }
    assert (E : forall t, segments_ok segs (map (ge t) xs) (map (ge t) (net A z mn mx xs)) = true).
    { intros t. rewrite (Hnat A bool (ge t) mn mx andb orb); [|apply ge_mn|apply ge_mx].
      apply (net_check_ok n net); auto. now rewrite map_length. }
    split.
    - intros s Hs. apply asc_sorted. intros t. specialize (G t). apply andb_prop in G. destruct G as [G _].
      rewrite forallb_forall in G. specialize (G s Hs). now rewrite <- firstn_map, <- skipn_map.
    - apply counts_perm; intros t.
      + specialize (G t). apply andb_prop in G. destruct G as [_ G]. now apply Nat.eqb_eq in G.
      + specialize (E t). apply andb_prop in E. destruct E as [_ E]. now apply Nat.eqb_eq in E.
  Qed.

  Lemma sort_of n net : net_natural net -> net_check n net (segments_ok [(0, n)]) = true ->
    forall z xs, length xs = n -> sorted_spec le (net A z mn mx xs) /\ Permutation (net A z mn mx xs) xs.
  Proof.
    intros Hn Hc z xs Hx. destruct (zero_one n net _ Hn Hc z xs Hx) as [S P]. split; auto.
    specialize (S (0, n) (or_introl eq_refl)). cbn [fst snd skipn] in S.
    rewrite firstn_all2 in S; auto. rewrite (Permutation_length P). lia.
  Qed.

  Theorem sse_sorted16_ok zero xs : length xs = 8 ->
    sorted_spec le (sse_sorted16 zero mn mx xs) /\ Permutation (sse_sorted16 zero mn mx xs) xs.
  Proof.
    apply (sort_of 8 (@sse_sorted16)); [|vm_compute; reflexivity].
    intros X C f a b a' b' H1 H2 z ys. now apply hom_sse16.
  Qed.
  Theorem sse_sorted32_ok xs : length xs = 4 ->
    sorted_spec le (sse_sorted32 mn mx xs) /\ Permutation (sse_sorted32 mn mx xs) xs.
  Proof.
    destruct xs as [|x0 xs']; [discriminate|]. intros H.
    refine (sort_of 4 (fun X (_ : X) a b => sse_sorted32 a b) _ _ x0 _ H); [|vm_compute; reflexivity].
    intros X C f a b a' b' H1 H2 z ys. now apply hom_sse32.
  Qed.
  Theorem sse_sorted_ps_ok xs : length xs = 4 ->
    sorted_spec le (sse_sorted_ps mn mx xs) /\ Permutation (sse_sorted_ps mn mx xs) xs.
  Proof.
    destruct xs as [|x0 xs']; [discriminate|]. intros H.
    refine (sort_of 4 (fun X (_ : X) a b => sse_sorted_ps a b) _ _ x0 _ H); [|vm_compute; reflexivity].
    intros X C f a b a' b' H1 H2 z ys. now apply hom_sse_ps.
  Qed.
  Theorem sse_sorted_pd_ok xs : length xs = 2 ->
    sorted_spec le (sse_sorted_pd mn mx xs) /\ Permutation (sse_sorted_pd mn mx xs) xs.
  Proof.
    destruct xs as [|x0 xs']; [discriminate|]. intros H.
    refine (sort_of 2 (fun X (_ : X) a b => sse_sorted_pd a b) _ _ x0 _ H); [|vm_compute; reflexivity].
    intros X C f a b a' b' H1 H2 z ys. now apply hom_sse_pd.
  Qed.
  Theorem avx_sorted16_ok xs : length xs = 16 ->
    sorted_spec le (avx_sorted16 mn mx xs) /\ Permutation (avx_sorted16 mn mx xs) xs.
  Proof.
    destruct xs as [|x0 xs']; [discriminate|]. intros H.
    refine (sort_of 16 (fun X (_ : X) a b => avx_sorted16 a b) _ _ x0 _ H); [|vm_compute; reflexivity].
    intros X C f a b a' b' H1 H2 z ys. now apply hom_avx16.
  Qed.
  Theorem avx_sorted_pd_ok xs : length xs = 4 ->
    sorted_spec le (avx_sorted_pd mn mx xs) /\ Permutation (avx_sorted_pd mn mx xs) xs.
  Proof.
    destruct xs as [|x0 xs']; [discriminate|]. intros H.
    refine (sort_of 4 (fun X (_ : X) a b => avx_sorted_pd a b) _ _ x0 _ H); [|vm_compute; reflexivity].
    intros X C f a b a' b' H1 H2 z ys. now apply hom_avx_pd.
  Qed.

  (** the two sorted halves after the first phase *)
  Definition phase1_net : network := fun X _ a b xs =>
    let p := avx_sorted32_phase1 a b xs in
    mem_permute_epi32 2 3 2 1 0 (avx_sorted32_b (fst p) (snd p)) ++ avx_sorted32_a (fst p) (snd p).
  Lemma phase1_natural : net_natural phase1_net.
  Proof.
    intros X C f a b a' b' H1 H2 z ys. unfold phase1_net. cbv zeta. rewrite (hom_phase1 f a b a' b' H1 H2).
    cbn [fst snd]. unfold avx_sorted32_b, avx_sorted32_a.
    now rewrite map_app, nat_permute_epi32, nat_shuffle4, nat_unpackhi.
  Qed.
  Definition avx_ps_net : network := fun X _ a b xs => avx_sorted_ps a b xs.
  Lemma avx_ps_natural : net_natural avx_ps_net.
  Proof.
    intros X C f a b a' b' H1 H2 z ys. unfold avx_ps_net, avx_sorted_ps. rewrite (hom_phase1 f a b a' b' H1 H2).
    destruct (avx_sorted32_phase1 a b ys) as [x y]. cbn [fst snd]. unfold avx_sorted32_b, avx_sorted32_a.
    rewrite (hom_merge f a b a' b' H1 H2). now rewrite nat_shuffle4, nat_unpackhi.
  Qed.
  Theorem avx_sorted_ps_ok xs : length xs = 8 ->
    sorted_spec le (avx_sorted_ps mn mx xs) /\ Permutation (avx_sorted_ps mn mx xs) xs.
  Proof.
    destruct xs as [|x0 xs']; [discriminate|]. intros H.
    refine (sort_of 8 avx_ps_net _ _ x0 _ H); [apply avx_ps_natural|vm_compute; reflexivity].
  Qed.

  Lemma sorted_app xs ys : sorted_spec le xs -> sorted_spec le ys ->
    (forall x y, In x xs -> In y ys -> le x y = true) -> sorted_spec le (xs ++ ys).
  Proof.
    induction xs as [|x xs IH]; intros Hx Hy H; cbn; auto. cbn in Hx. destruct Hx as [H1 H2]. split.
    - intros y Q. apply in_app_or in Q. destruct Q as [Q|Q]; auto. apply H; auto. now left.
    - apply IH; auto. intros a b Ha Hb. apply H; auto. now right.
  Qed.
  Lemma sorted_bound_lo m xs : sorted_spec le (m :: xs) -> forall y, In y (m :: xs) -> le m y = true.
  Proof.
    intros [H _] y [<-|Hy]; auto. destruct (to_total le Hle m m); auto.
  Qed.
  Lemma sorted_bound_hi xs m : sorted_spec le (xs ++ [m]) -> forall y, In y (xs ++ [m]) -> le y m = true.
  Proof.
    induction xs as [|x xs IH]; intros H y Hy; cbn in *.
    - destruct Hy as [<-|[]]. destruct (to_total le Hle m m); auto.
    - destruct H as [H1 H2]. destruct Hy as [<-|Hy]; auto. apply H1. apply in_or_app. right. now left.
  Qed.

  Theorem avx_sorted32_ok zero xs : length xs = 8 ->
    sorted_spec le (avx_sorted32 zero mn mx (fun a b => le b a) xs) /\
    Permutation (avx_sorted32 zero mn mx (fun a b => le b a) xs) xs.
  Proof.
    intros H. pose proof (avx_sorted_ps_ok xs H) as [S P].
    destruct (zero_one 8 phase1_net [(0, 4); (4, 4)] phase1_natural ltac:(vm_compute; reflexivity) zero xs H) as [Q R].
    pose proof (Q (0, 4) (or_introl eq_refl)) as Qb. pose proof (Q (4, 4) (or_intror (or_introl eq_refl))) as Qa.
    clear Q. unfold avx_sorted32, avx_sorted_ps, phase1_net in *. cbn [fst snd] in Qa, Qb.
    assert (Lx : length (fst (avx_sorted32_phase1 mn mx xs)) = 4 /\ length (snd (avx_sorted32_phase1 mn mx xs)) = 4).
    { destruct xs as [|? [|? [|? [|? [|? [|? [|? [|? [|? ?]]]]]]]]]; try discriminate H. split; reflexivity. }
    destruct (avx_sorted32_phase1 mn mx xs) as [x y]. cbn [fst snd] in *.
    destruct Lx as [Lx Ly].
    destruct x as [|x0 [|x1 [|x2 [|x3 [|? ?]]]]]; try discriminate Lx.
    destruct y as [|y0 [|y1 [|y2 [|y3 [|? ?]]]]]; try discriminate Ly.
    cbn [nth].
    change (mem_permute_epi32 2 3 2 1 0 (avx_sorted32_b [x0; x1; x2; x3] [y0; y1; y2; y3])) with [x0; x1; y0; y1] in *.
    change (avx_sorted32_a [x0; x1; x2; x3] [y0; y1; y2; y3]) with [x2; x3; y2; y3] in *.
    change (sorted_spec le [x0; x1; y0; y1]) in Qb. change (sorted_spec le [x2; x3; y2; y3]) in Qa.
    destruct (le y1 x2) eqn:E1; [|destruct (le y3 x0) eqn:E2]; auto.
    - split; auto. apply sorted_app; auto. intros a b Ha Hb.
      apply (to_trans le Hle) with y1; [apply (sorted_bound_hi [x0; x1; y0] y1 Qb a Ha)|].
      apply (to_trans le Hle) with x2; auto. now apply sorted_bound_lo with [x3; y2; y3].
    - split.
      + apply sorted_app; auto. intros a b Ha Hb.
        apply (to_trans le Hle) with y3; [apply (sorted_bound_hi [x2; x3; y2] y3 Qa a Ha)|].
        apply (to_trans le Hle) with x0; auto. now apply sorted_bound_lo with [x1; y0; y1].
      + rewrite <- R. apply Permutation_app_comm.
  Qed.
End Threshold.
