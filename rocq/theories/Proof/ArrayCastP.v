(** Proofs about simd_cast of SimdArrays *)
From Coq Require Import ZArith List Bool Lia Arith.
From Verif.Spec Require Import Seq NativeSpec ArrayCastSpec NativeCastSpec.
From Verif.Model Require Import SplitSize SimdArray SimdArrayOps ArrayCast.
From Verif.Proof Require Import SeqP SplitSizeP SimdArrayP SimdArrayMoveP SimdArrayOpsP.
Import ListNotations.
Local Open Scope nat_scope.

(** * Parts of lists *)
Section Part.
  Context {A : Type}.
  Lemma part_length m off (xs : list A) : length (part m off xs) = m.
  Proof. unfold part. now rewrite map_length, seq_length. Qed.
  Lemma part_app a b off (xs : list A) : part (a + b) off xs = part a off xs ++ part b (off + a) xs.
  Proof. unfold part. now rewrite seq_app, map_app. Qed.
  Lemma part_ext m off off' (xs ys : list A) : (forall i, i < m -> nth_error xs (off + i) = nth_error ys (off' + i)) -> part m off xs = part m off' ys.
  Proof.
    revert off off'. induction m as [|m IH]; intros off off' H; [reflexivity|]. unfold part in *. cbn [seq map]. f_equal.
    - specialize (H 0 ltac:(lia)). now rewrite !Nat.add_0_r in H.
    - apply IH. intros i Hi. specialize (H (S i) ltac:(lia)). now rewrite !Nat.add_succ_r in H.
  Qed.
  Lemma part_prefix m off (a b : list A) : off + m <= length a -> part m off (a ++ b) = part m off a.
  Proof. intros H. apply part_ext. intros i Hi. apply nth_error_app1. lia. Qed.
  Lemma part_skip m off (a b : list A) : length a <= off -> part m off (a ++ b) = part m (off - length a) b.
  Proof. intros H. apply part_ext. intros i Hi. rewrite nth_error_app2 by lia. f_equal. lia. Qed.
  Lemma part_out m off (xs : list A) : length xs <= off -> part m off xs = repeat None m.
  Proof.
    revert off. induction m as [|m IH]; intros off H; [reflexivity|]. unfold part in *. cbn [seq map repeat]. rewrite IH by lia. f_equal. apply nth_error_None. lia.
  Qed.
  Lemma nth_error_znth (d : A) xs i : i < length xs -> nth_error xs i = Some (znth d xs (Z.of_nat i)).
  Proof. intros H. rewrite znth_in by lia. rewrite Nat2Z.id. now apply nth_error_nth'. Qed.
End Part.

Lemma Forall2_len {A B} (P : A -> B -> Prop) xs ys : Forall2 P xs ys -> length xs = length ys.
Proof. induction 1; cbn; auto. Qed.
Lemma conv_intro {A B} (R : A -> B -> Prop) pad d m off xs ys : length ys = m ->
  (forall i, i < m -> becomes R pad (nth_error xs (off + i)) (znth d ys (Z.of_nat i))) -> converts R pad m off xs ys.
Proof.
  unfold converts, part. revert off ys. induction m as [|m IH]; intros off [|y ys] L H; try discriminate L; [constructor|]. cbn [seq map]. constructor.
  - specialize (H 0 ltac:(lia)). now rewrite Nat.add_0_r in H.
  - apply IH; [now injection L|]. intros i Hi. specialize (H (S i) ltac:(lia)). rewrite Nat.add_succ_r in H. cbn [Nat.add].
    rewrite znth_in in H |- * by (cbn in *; lia). rewrite Nat2Z.id in *. exact H.
Qed.
Lemma conv_elim {A B} (R : A -> B -> Prop) pad d m off xs ys : converts R pad m off xs ys ->
  length ys = m /\ forall i, i < m -> becomes R pad (nth_error xs (off + i)) (znth d ys (Z.of_nat i)).
Proof.
  unfold converts. intros H. assert (L : length ys = m) by (apply Forall2_len in H; rewrite part_length in H; lia). split; [exact L|]. clear L. revert off ys H.
  unfold part. induction m as [|m IH]; intros off ys H i Hi; [lia|]. cbn [seq map] in H. inversion H as [|? y ? ys' Hy Hs]; subst. destruct i as [|i].
  - now rewrite Nat.add_0_r.
  - specialize (IH (S off) ys' Hs i ltac:(lia)). rewrite Nat.add_succ_r. apply Forall2_len in Hs. rewrite map_length, seq_length in Hs.
    rewrite znth_in in IH |- * by (cbn [length]; lia). rewrite Nat2Z.id in *. exact IH.
Qed.

Lemma power_of_2_ok n : 1 <= n -> is_power_of_2 n = true <-> power_of_two n.
Proof.
  intros P. unfold is_power_of_2. rewrite Z.land_comm. split.
  - intros H. pose proof (npot_done_inv (Z.of_nat n) ltac:(lia) H) as E. exists (Z.to_nat (Z.log2 (Z.of_nat n))).
    apply Nat2Z.inj. rewrite Nat2Z.inj_pow, Z2Nat.id by apply Z.log2_nonneg. exact E.
  - intros (j & ->). pose proof (npot_done_pow2 (Z.of_nat j) ltac:(lia)) as E. unfold npot_done in E. rewrite Nat2Z.inj_pow. exact E.
Qed.
Lemma pow2_divide a b : power_of_two a -> power_of_two b -> a <= b -> exists q, b = q * a.
Proof.
  intros (i & ->) (j & ->) H. assert (i <= j) by (apply Nat.pow_le_mono_r_iff with 2; lia). exists (2 ^ (j - i)). rewrite <- Nat.pow_add_r. f_equal. lia.
Qed.
Lemma pow2_lt_left a m : power_of_two a -> 2 <= m -> a < m -> a <= left_size m.
Proof.
  intros (i & ->) M H. destruct (left_size_spec m M) as (j & E & H1 & H2). rewrite E in *. apply Nat.pow_le_mono_r; [lia|].
  destruct (Nat.le_gt_cases i j) as [C|C]; [exact C|]. exfalso. assert (2 ^ S j <= 2 ^ i) by (apply Nat.pow_le_mono_r; lia). rewrite Nat.pow_succ_r' in *. lia.
Qed.
Lemma left_pow2 m : 2 <= m -> power_of_two (left_size m).
Proof. intros H. destruct (left_size_spec m H) as (j & E & _). now exists j. Qed.
Lemma pow2_half n : 2 <= n -> power_of_two n -> left_size n = right_size n /\ n = 2 * left_size n /\ power_of_two (right_size n).
Proof.
  intros H (j & ->). destruct j as [|j]; [cbn in H; lia|]. unfold right_size. rewrite left_size_pow2, Nat.pow_succ_r'. repeat split; try lia. exists j. lia.
Qed.

Section Cast.
  Context {A B : Type} (native_from native_to : nat -> bool) (moves : native_ops A) (ops : cast_ops A B).
  Context (zeroA : A) (zeroB : B) (R : A -> B -> Prop) (pad : B -> Prop).
  Hypothesis Wf : widths_ok native_from.
  Hypothesis Wt : widths_ok native_to.
  Hypothesis Hm : native_moves_ok native_from zeroA moves.
  Hypothesis Hc : native_casts_ok native_from native_to zeroA zeroB R pad ops.
  Notation conv := (converts R pad).
  Notation cast_many := (cast_many native_from native_to moves ops zeroA zeroB).
  Notation cast_offset := (cast_offset native_from native_to moves ops zeroA zeroB).
  Notation with_offset := (with_offset native_from native_to moves ops zeroA zeroB).

  Fixpoint nodes (t : sa A) : nat := match t with Leaf _ => 1 | Node l r => 1 + nodes l + nodes r end.
  Definition weight (xs : list (sa A)) : nat := fold_right (fun x s => nodes x + s) 0 xs.
  Definition flat (xs : list (sa A)) : list A := concat (map to_list xs).
  Definition args (o : origin) (s : nat) (xs : list (sa A)) : Prop :=
    (forall x, In x xs -> wf native_from s x) /\ (o = FromVector -> native_from s = true).
  Definition target_ok (r : target) : Prop := match r with ToVector m => native_to m = true | ToArray m => 1 <= m end.

  Lemma target_pos r : target_ok r -> 1 <= target_size r.
  Proof. destruct r; cbn; auto. apply (native_pos native_to Wt). Qed.
  Lemma native_pow2 nat' : widths_ok nat' -> forall s, nat' s = true -> power_of_two s.
  Proof. intros (_ & H) s. apply H. Qed.
  Lemma nodes_pos t : 1 <= nodes t.
  Proof. destruct t; cbn; lia. Qed.
  Lemma nodes_size s (t : sa A) : wf native_from s t -> nodes t + 1 <= 2 * s.
  Proof.
    induction 1 as [n xs N L|n l r N Wl IHl Wr IHr]; cbn [nodes].
    - pose proof (native_pos native_from Wf n N). lia.
    - pose proof (wf_size native_from Wf _ _ Wl) as (_ & _ & P). pose proof (wf_size native_from Wf _ _ Wr) as (_ & _ & Q). unfold right_size in *. lia.
  Qed.
  Lemma flat_length s xs : (forall x, In x xs -> wf native_from s x) -> length (flat xs) = length xs * s.
  Proof.
    induction xs as [|x xs IH]; intros H; [reflexivity|]. unfold flat in *. cbn [map concat length]. rewrite app_length, IH by (intros; apply H; now right).
    rewrite (wf_len native_from Wf s x) by (apply H; now left). lia.
  Qed.
  Lemma flat_app xs ys : flat (xs ++ ys) = flat xs ++ flat ys.
  Proof. unfold flat. now rewrite map_app, concat_app. Qed.
  Lemma weight_app xs ys : weight (xs ++ ys) = weight xs + weight ys.
  Proof. unfold weight. induction xs as [|x xs IH]; cbn; [reflexivity|]. rewrite IH. lia. Qed.
  Lemma weight_len xs : length xs <= weight xs.
  Proof. induction xs as [|x xs IH]; unfold weight in *; cbn [fold_right length] in *; [lia|]. pose proof (nodes_pos x). lia. Qed.

  Lemma split_last (xs : list (sa A)) d : xs <> [] -> xs = removelast xs ++ [last xs d].
  Proof. apply app_removelast_last. Qed.
  Lemma last_in (xs : list (sa A)) d : xs <> [] -> In (last xs d) xs.
  Proof. intros N. pose proof (split_last xs d N) as E. assert (I : In (last xs d) (removelast xs ++ [last xs d])) by (apply in_or_app; right; now left). now rewrite <- E in I. Qed.
  Lemma removelast_len (xs : list (sa A)) : length (removelast xs) = length xs - 1.
  Proof.
    destruct xs as [|x xs]; [reflexivity|]. pose proof (f_equal (@length _) (split_last (x :: xs) x ltac:(discriminate))) as E. rewrite app_length in E. cbn [length] in *. lia.
  Qed.
  Lemma removelast_in (xs : list (sa A)) y : In y (removelast xs) -> In y xs.
  Proof.
    destruct xs as [|x xs]; [auto|]. intros H. rewrite (split_last (x :: xs) x ltac:(discriminate)). apply in_or_app. now left.
  Qed.
  Lemma removelast_weight (xs : list (sa A)) : xs <> [] -> weight (removelast xs) < weight xs.
  Proof.
    intros N. destruct xs as [|x xs]; [congruence|]. rewrite (split_last (x :: xs) x N) at 2. rewrite weight_app. cbn [weight fold_right]. pose proof (nodes_pos (last (x :: xs) x)). lia.
  Qed.
  Lemma removelast_part s xs m off : xs <> [] -> (forall x, In x xs -> wf native_from s x) -> off + m <= (length xs - 1) * s ->
    part m off (flat (removelast xs)) = part m off (flat xs).
  Proof.
    intros N W H. destruct xs as [|x xs]; [congruence|]. rewrite (split_last (x :: xs) x N) at 2. rewrite flat_app. symmetry. apply part_prefix.
    rewrite (flat_length s) by (intros y I; apply W; now apply removelast_in). now rewrite removelast_len.
  Qed.

  Lemma zeros_conv m : 1 <= m -> wf native_to m (zeros native_to zeroB m) /\ Forall2 (becomes R pad) (repeat None m) (to_list (zeros native_to zeroB m)).
  Proof.
    intros H. split; [apply (generate_wf native_to Wt); auto|]. unfold zeros. rewrite (generate_list native_to Wt) by auto. unfold tab.
    generalize 0 as k. induction m as [|m IH]; intros k; cbn; [constructor|]. constructor; [exact (nc_pad _ _ _ _ _ _ _ Hc)|]. destruct m as [|m]; [constructor|]. apply IH. lia.
  Qed.
  Lemma zero_target_conv r : target_ok r -> wf native_to (target_size r) (zero_target native_to zeroB r) /\
    Forall2 (becomes R pad) (repeat None (target_size r)) (to_list (zero_target native_to zeroB r)).
  Proof.
    destruct r as [m|m]; cbn [target_ok target_size zero_target]; intros H; [|now apply zeros_conv]. split; [constructor; [exact H|apply repeat_length]|].
    cbn [to_list]. clear H. induction m; cbn; constructor; [exact (nc_pad _ _ _ _ _ _ _ Hc)|assumption].
  Qed.

  (** results of m entries, with the part they represent *)
  Definition out (m : nat) (p : list (option A)) (y : option (sa B)) : Prop :=
    exists t, y = Some t /\ wf native_to m t /\ Forall2 (becomes R pad) p (to_list t).
  Lemma out_pair m p q y z : 2 <= m -> native_to m = false -> out (left_size m) p y -> out (right_size m) q z -> out m (p ++ q) (pair_up y z).
  Proof.
    intros M N (t & -> & W & F) (u & -> & W' & F'). exists (Node t u). split; [reflexivity|]. split; [now constructor|]. cbn [to_list]. now apply Forall2_app.
  Qed.
  Lemma out_zeros m : 1 <= m -> out m (repeat None m) (Some (zeros native_to zeroB m)).
  Proof. intros H. eexists. split; [reflexivity|]. now apply zeros_conv. Qed.
  Lemma out_native m off xs y : native_to m = true -> (exists l, y = Some l /\ conv m off xs l) -> out m (part m off xs) (option_map Leaf y).
  Proof.
    intros N (l & -> & C). exists (Leaf l). split; [reflexivity|]. split; [|exact C]. constructor; [exact N|]. apply (conv_elim R pad zeroB) in C. apply C.
  Qed.

  Lemma copy_ok m from cnt first (x : sa A) (y : sa B) : wf native_to m y -> from + cnt <= m ->
    let y' := copy_entries ops zeroA from (from + cnt) first x y in
    wf native_to m y' /\ forall i, i < m -> znth zeroB (to_list y') (Z.of_nat i) =
      if (from <=? i) && (i <? from + cnt) then c_entry ops (znth zeroA (to_list x) (Z.of_nat (i - from + first))) else znth zeroB (to_list y) (Z.of_nat i).
  Proof.
    intros W. unfold copy_entries. replace (from + cnt - from) with cnt by lia. induction cnt as [|cnt IH]; intros H; cbv zeta.
    - cbn [seq fold_left]. split; [exact W|]. intros i Hi. destruct (Nat.leb_spec from i), (Nat.ltb_spec i (from + 0)); try lia; reflexivity.
    - destruct IH as (W' & E); [lia|]. rewrite seq_S, fold_left_app. cbn [fold_left].
      destruct (set_ok native_to zeroB Wt m _ (Z.of_nat (from + cnt)) (c_entry ops (znth zeroA (to_list x) (Z.of_nat (from + cnt - from + first)))) W' ltac:(lia)) as (W2 & E2).
      split; [exact W2|]. intros i Hi. rewrite E2. destruct (Z.eqb_spec (Z.of_nat i) (Z.of_nat (from + cnt))) as [Q|Q].
      + assert (i = from + cnt) as -> by lia. destruct (Nat.leb_spec from (from + cnt)), (Nat.ltb_spec (from + cnt) (from + S cnt)); try lia. reflexivity.
      + rewrite E by exact Hi. destruct (Nat.leb_spec from i), (Nat.ltb_spec i (from + cnt)), (Nat.ltb_spec i (from + S cnt)); try lia; reflexivity.
  Qed.

  Lemma args_leaf s xs : args FromVector s xs -> map leaf_of xs = map to_list xs /\ forall x, In x (map leaf_of xs) -> length x = s.
  Proof.
    intros (W & _). split; [reflexivity|]. intros x I. apply in_map_iff in I. destruct I as (y & <- & I). apply (wf_len native_from Wf). auto.
  Qed.

  Lemma drop_ok s m : forall fuel xs, length xs <= fuel -> xs <> [] -> (forall x, In x xs -> wf native_from s x) ->
    let ys := drop_arguments fuel s m xs in
    ys <> [] /\ (forall x, In x ys -> In x xs) /\ weight ys <= weight xs /\ part m 0 (flat ys) = part m 0 (flat xs) /\ (length ys = 1 \/ (length ys - 1) * s < m).
  Proof.
    induction fuel as [|fuel IH]; intros xs L N W; cbn [drop_arguments]; [destruct xs; cbn in L; [congruence|lia]|].
    destruct (Nat.leb_spec 2 (length xs)) as [H1|H1], (Nat.leb_spec m ((length xs - 1) * s)) as [H2|H2]; cbn [andb];
      try (split; [exact N|]; split; [auto|]; split; [auto|]; split; [reflexivity|]; destruct xs as [|x [|x' xs]]; cbn [length] in *; [congruence|now left|try (exfalso; lia); now right]).
    assert (N' : removelast xs <> []) by (intros E; pose proof (removelast_len xs) as Q; rewrite E in Q; cbn in Q; lia).
    specialize (IH (removelast xs)). cbv zeta in IH. destruct IH as (I1 & I2 & I3 & I4 & I5).
    - rewrite removelast_len. lia.
    - exact N'.
    - intros x I. apply W. now apply removelast_in.
    - split; [exact I1|]. split; [intros x I; apply removelast_in; auto|]. split; [pose proof (removelast_weight xs N); lia|]. split; [|exact I5]. rewrite I4. apply (removelast_part s); auto.
  Qed.

  Lemma halves_ok s xs : 2 <= s -> power_of_two s -> (forall x, In x xs -> wf native_from s x) -> native_from s = false ->
    exists ys, interleaved_halves xs = Some ys /\ (forall y, In y ys -> wf native_from (left_size s) y) /\ length ys = 2 * length xs /\
      flat ys = flat xs /\ weight ys + length xs = weight xs.
  Proof.
    intros S2 P W N. destruct (pow2_half s S2 P) as (E & _ & _). induction xs as [|x xs IH]; [exists []; cbn; repeat split; auto; contradiction|].
    destruct IH as (ys & -> & I1 & I2 & I3 & I4) || (destruct IH as (ys & Ey & I1 & I2 & I3 & I4); [intros y I; apply W; now right|]).
    pose proof (W x (or_introl eq_refl)) as Wx. inversion Wx as [? l N' L|? l h N' Wl Wh]; subst; [congruence|].
    cbn [interleaved_halves fold_right] in *. unfold interleaved_halves in Ey. rewrite Ey. eexists. split; [reflexivity|]. split; [|split; [|split]].
    - intros y [<-|[<-|I]]; [exact Wl|rewrite E; exact Wh|auto].
    - cbn [length]. lia.
    - unfold flat in *. cbn [map concat to_list]. rewrite I3. now rewrite app_assoc.
    - unfold weight in *. cbn [fold_right nodes length] in *. lia.
  Qed.

  Definition rank (o : origin) (a b : nat) : nat := match o with FromVector => a | FromArray => b end.
  Definition many_cond (o : origin) (s m n : nat) : Prop :=
    n = 1 \/ match o with FromVector => (n - 1) * s < m | FromArray => s < m /\ (n - 2) * s < m end.
  Definition off_cond (o : origin) (s m n off : nat) : Prop :=
    n = 1 /\ (o = FromArray -> power_of_two s) \/
    o = FromVector /\ 2 <= n /\ (exists q, off = q * s) /\ off < n * s /\ (n - 1) * s < off + m.

  Lemma sa_map_ok s t : wf native_from s t -> c_same ops = true -> wf native_to s (sa_map ops t) /\ conv s 0 (to_list t) (to_list (sa_map ops t)).
  Proof.
    intros W Sm. split.
    - induction W as [n xs N L|n l r N Wl IHl Wr IHr]; cbn [sa_map].
      + constructor; [now rewrite <- (nc_same _ _ _ _ _ _ _ Hc Sm)|now rewrite map_length].
      + constructor; auto. now rewrite <- (nc_same _ _ _ _ _ _ _ Hc Sm).
    - assert (E : to_list (sa_map ops t) = map (c_entry ops) (to_list t)) by (clear W; induction t as [xs|l IHl r IHr]; cbn [sa_map to_list]; [reflexivity|now rewrite map_app, IHl, IHr]).
      rewrite E. rewrite <- (wf_len native_from Wf s t W). clear E. generalize (to_list t). clear W t. intros xs. apply (conv_intro R pad zeroB); [now rewrite map_length|].
      intros i Hi. cbn [Nat.add]. rewrite (znth_in _ zeroB) by (rewrite map_length; lia). rewrite Nat2Z.id. rewrite (nth_error_nth' xs zeroA Hi). cbn [becomes].
      rewrite (nth_indep _ zeroB (c_entry ops zeroA)) by (now rewrite map_length). rewrite map_nth. apply (nc_entry _ _ _ _ _ _ _ Hc).
  Qed.

  Definition many_good (fuel : nat) : Prop := forall o r s xs, xs <> [] -> args o s xs -> target_ok r -> many_cond o s (target_size r) (length xs) ->
    5 * (weight xs + target_size r) + rank o 0 1 < fuel -> out (target_size r) (part (target_size r) 0 (flat xs)) (cast_many fuel o r xs).
  Definition offset_good (fuel : nat) : Prop := forall o r s k x, args o s [x] -> target_ok r -> k * target_size r < s ->
    (o = FromVector \/ power_of_two s \/ power_of_two (target_size r)) ->
    5 * (weight [x] + target_size r) + rank o 2 3 < fuel -> out (target_size r) (part (target_size r) (k * target_size r) (to_list x)) (cast_offset fuel o r k x).
  Definition with_good (fuel : nat) : Prop := forall o m s off xs, xs <> [] -> args o s xs -> 1 <= m -> off_cond o s m (length xs) off ->
    5 * (weight xs + m) + 4 < fuel -> out m (part m off (flat xs)) (with_offset fuel o (ToArray m) off xs).

  Lemma many_step fuel : many_good fuel -> with_good fuel -> many_good (S fuel).
  Proof.
    intros IH1 IH3 o r s xs NE (W & Nv) T C F. pose proof (target_pos r T) as Mp. destruct xs as [|x0 xs']; [congruence|]. set (xs := x0 :: xs') in *.
    assert (Hs : size_of_first xs = s) by (cbn; apply (wf_sz native_from Wf); apply W; now left).
    assert (Sp : 1 <= s) by (apply (wf_size native_from Wf s x0); apply W; now left).
    assert (Rm : forall f, (forall x, In x xs -> wf native_from s x) -> 2 <= length xs -> removelast xs <> [] /\ (forall x, In x (removelast xs) -> wf native_from s x) /\
      length (removelast xs) = length xs - 1 /\ weight (removelast xs) < weight xs /\ (f + 0 <= (length xs - 1) * s -> part f 0 (flat (removelast xs)) = part f 0 (flat xs))).
    { intros f _ L. split; [intros E; pose proof (removelast_len xs) as Q; rewrite E in Q; cbn in Q, L; lia|]. split; [intros x I; apply W; now apply removelast_in|].
      split; [apply removelast_len|]. split; [now apply removelast_weight|]. intros H. apply (removelast_part s); auto. lia. }
    assert (U : cast_many (S fuel) o r xs = cast_many (S fuel) o r (x0 :: xs')) by reflexivity. rewrite U. clear U. cbn [ArrayCast.cast_many]. fold xs. rewrite Hs.
    destruct o.
    - specialize (Nv eq_refl). pose proof (args_leaf s xs (conj W (fun _ => Nv))) as (El & Ll).
      assert (NM : forall m, native_to m = true -> (length xs - 1) * s < m -> out m (part m 0 (flat xs)) (option_map Leaf (c_many ops m (map leaf_of xs)))).
      { intros m N C'. apply out_native; [exact N|]. unfold flat. rewrite <- El. apply (nc_many _ _ _ _ _ _ _ Hc s); auto; [discriminate|now rewrite map_length]. }
      assert (C' : (length xs - 1) * s < target_size r) by (destruct C as [C|C]; [rewrite C; cbn; lia|exact C]).
      destruct r as [m|m]; cbn [target_size target_ok] in *; [now apply NM|].
      destruct (native_to m) eqn:Nm.
      + destruct (Nat.ltb_spec (s * (length xs - 1)) m) as [H|H]; [now apply NM|lia].
      + pose proof (not_native_ge2 native_to Wt m T Nm) as M2. pose proof (right_left m M2) as (RL & RP).
        pose proof (left_size_pos m M2) as LP. pose proof (native_pow2 _ Wf s Nv) as Sp2.
        assert (PS : part m 0 (flat xs) = part (left_size m) 0 (flat xs) ++ part (right_size m) (left_size m) (flat xs)) by (rewrite <- RL at 1; rewrite part_app; reflexivity).
        rewrite PS. destruct (Nat.ltb_spec (left_size m) (s * length xs)) as [H|H].
        * apply out_pair; auto.
          -- destruct (drop_ok s (left_size m) (length xs) xs (le_n _) NE W) as (D1 & D2 & D3 & D4 & D5). rewrite <- D4. apply (IH1 FromVector (ToArray (left_size m)) s); auto.
             ++ split; auto.
             ++ cbn [target_size rank] in *. lia.
          -- apply (IH3 FromVector (right_size m) s); auto; [split; auto|lia| |cbn [rank] in F; lia].
             destruct (Nat.eq_dec (length xs) 1) as [L1|L1]; [left; split; [exact L1|discriminate]|]. right. assert (L2 : 2 <= length xs) by (cbn in L1 |- *; lia).
             split; [reflexivity|]. split; [exact L2|]. split; [|split; lia].
             assert (s < m) by nia. apply pow2_divide; auto; [now apply left_pow2|now apply pow2_lt_left].
        * apply out_pair; auto.
          -- apply (IH1 FromVector (ToArray (left_size m)) s); auto; [split; auto| |cbn [target_size rank] in *; lia].
             destruct (Nat.eq_dec (length xs) 1) as [L1|L1]; [now left|]. right. cbn [target_size]. assert (L2 : 2 <= length xs) by (cbn in L1 |- *; lia). nia.
          -- rewrite part_out by (rewrite (flat_length s) by exact W; lia). apply out_zeros. lia.
    - destruct (c_same ops && (length xs =? 1) && match r with ToArray m => m =? s | ToVector _ => false end) eqn:Sm.
      { apply andb_true_iff in Sm. destruct Sm as (Sm & E). apply andb_true_iff in Sm. destruct Sm as (Sm & L1). destruct r as [m|m]; [discriminate E|].
        apply Nat.eqb_eq in E, L1. subst m. destruct xs' as [|x1 xs']; [|cbn in L1; lia]. cbn [target_size].
        destruct (sa_map_ok s x0 (W x0 (or_introl eq_refl)) Sm) as (W' & Cv). eexists. split; [reflexivity|]. split; [exact W'|]. unfold flat, xs. cbn [map concat]. rewrite app_nil_r. exact Cv. }
      pose proof (W x0 (or_introl eq_refl)) as W0. inversion W0 as [? l N0 L0 E1 E2|? l h N0 Wl Wh E1 E2]; subst x0.
      + (* atomic *)
        assert (Q : c_same ops && match r with ToArray m => m =? s | ToVector _ => false end = false).
        { destruct (c_same ops); [|reflexivity]. cbn [andb] in *. destruct r as [m|m]; [reflexivity|]. destruct (Nat.eqb_spec m s) as [->|]; [|reflexivity]. cbn [target_size] in *.
          destruct C as [C|(C & _)]; [|lia]. rewrite C in Sm. discriminate Sm. }
        rewrite Q. destruct (Nat.eqb_spec (length xs) 1) as [L1|L1]; cbn [orb].
        * apply (IH1 FromVector r s); auto; [split; auto|now left|cbn [rank] in *; lia].
        * assert (L2 : 2 <= length xs) by (cbn in L1 |- *; lia). destruct C as [C|(C1 & C2)]; [lia|].
          destruct (Nat.ltb_spec (s * (length xs - 1)) (target_size r)) as [H|H].
          -- apply (IH1 FromVector r s); auto; [split; auto|right; lia|cbn [rank] in *; lia].
          -- destruct (Rm (target_size r) W L2) as (R1 & R2 & R3 & R4 & R5). rewrite <- R5 by lia. apply (IH1 FromVector r s); auto; [split; auto| |cbn [rank] in *; lia].
             right. rewrite R3. replace (length xs - 1 - 1) with (length xs - 2) by lia. exact C2.
      + (* two members *)
        pose proof (not_native_ge2 native_from Wf s Sp N0) as S2. pose proof (right_left s S2) as (RL & RP). pose proof (left_size_pos s S2) as LP.
        destruct (is_power_of_2 s) eqn:P2.
        * apply power_of_2_ok in P2; [|lia]. destruct (pow2_half s S2 P2) as (E & E' & _).
          assert (Wh' : wf native_from (left_size s) h) by (rewrite E; exact Wh).
          destruct (Nat.eqb_spec (length xs) 1) as [L1|L1]; cbn [andb].
          -- assert (xs' = []) as -> by (destruct xs'; [reflexivity|cbn in L1; lia]).
             destruct (Nat.leb_spec (2 * target_size r) s) as [H|H].
             { replace (part (target_size r) 0 (flat xs)) with (part (target_size r) 0 (flat [l])).
               - apply (IH1 FromArray r (left_size s)); auto; [discriminate| |now left|unfold xs in F; cbn [rank weight fold_right nodes] in *; pose proof (nodes_pos h); lia].
                 split; [intros x [<-|[]]; exact Wl|discriminate].
               - unfold flat, xs. cbn [map concat to_list]. rewrite !app_nil_r. symmetry. apply part_prefix. rewrite (wf_len native_from Wf _ _ Wl). lia. }
             destruct (Nat.ltb_spec (target_size r) s) as [H'|H'].
             { replace (flat xs) with (flat [l; h]) by (unfold flat, xs; cbn [map concat to_list]; now rewrite !app_nil_r).
               apply (IH1 FromArray r (left_size s)); auto; [discriminate| |right; cbn; lia|unfold xs in F; cbn [rank weight fold_right nodes] in *; lia].
               split; [intros x [<-|[<-|[]]]; auto|discriminate]. }
             destruct (Nat.ltb_spec (s * (length xs - 1)) (target_size r)) as [H2|H2]; [|rewrite L1 in H2; lia].
             destruct (halves_ok s xs S2 P2 W N0) as (ys & Ey & Y1 & Y2 & Y3 & Y4). rewrite Ey, <- Y3. apply (IH1 FromArray r (left_size s)); auto.
             ++ intros ->. cbn in Y2. lia.
             ++ split; [exact Y1|discriminate].
             ++ right. rewrite Y2, L1. cbn. lia.
             ++ cbn [rank] in *. lia.
          -- assert (L2 : 2 <= length xs) by (cbn in L1 |- *; lia). destruct C as [C|(C1 & C2)]; [lia|].
             destruct (Nat.ltb_spec (s * (length xs - 1)) (target_size r)) as [H|H].
             ++ destruct (halves_ok s xs S2 P2 W N0) as (ys & Ey & Y1 & Y2 & Y3 & Y4). rewrite Ey, <- Y3. apply (IH1 FromArray r (left_size s)); auto.
                ** intros ->. cbn in Y2. lia.
                ** split; [exact Y1|discriminate].
                ** right. rewrite Y2. split; [lia|]. replace ((2 * length xs - 2) * left_size s) with ((length xs - 1) * (2 * left_size s)) by lia. rewrite <- E'. lia.
                ** cbn [rank] in *. lia.
             ++ destruct (Rm (target_size r) W L2) as (R1 & R2 & R3 & R4 & R5). rewrite <- R5 by lia. apply (IH1 FromArray r s); auto; [split; [auto|discriminate]| |cbn [rank] in *; lia].
                right. split; [exact C1|]. rewrite R3. nia.
        * (* sizes that are not a power of two: one entry after the other *)
          set (n1 := length xs - 1). assert (Ln : length xs = n1 + 1) by (unfold n1; cbn; lia).
          assert (Wl' : wf native_from s (last xs (Node l h))) by (apply W; apply last_in; discriminate).
          assert (HB : exists y, cast_many fuel FromArray r (removelast xs) = Some y /\ wf native_to (target_size r) y /\
             Forall2 (becomes R pad) (part (target_size r) 0 (flat (removelast xs))) (to_list y)).
          { destruct (Nat.eq_dec n1 0) as [Z|Z].
            - assert (xs' = []) as -> by (destruct xs'; [reflexivity|unfold xs in Ln; cbn [length] in Ln; lia]). unfold xs. cbn [removelast]. destruct fuel as [|fuel]; [lia|]. cbn [ArrayCast.cast_many].
              eexists. split; [reflexivity|]. unfold flat. cbn [map concat]. rewrite part_out by (cbn; lia). now apply zero_target_conv.
            - destruct (Rm 0 W ltac:(lia)) as (R1 & R2 & R3 & R4 & _). apply (IH1 FromArray r s); auto; [split; [auto|discriminate]| |cbn [rank] in *; lia].
              destruct C as [C|(C1 & C2)]; [lia|]. destruct (Nat.eq_dec n1 1) as [Z1|Z1]; [left; lia|]. right. split; [exact C1|]. rewrite R3. nia. }
          destruct HB as (y & -> & Wy & Fy). apply (conv_elim R pad zeroB) in Fy. destruct Fy as (Ly & Fy).
          assert (Lf : length (flat (removelast xs)) = s * n1) by (rewrite (flat_length s) by (intros x I; apply W; now apply removelast_in); rewrite removelast_len; lia).
          assert (Fl : flat xs = flat (removelast xs) ++ to_list (last xs (Node l h))) by (rewrite (split_last xs (Node l h)) at 1 by discriminate; rewrite flat_app; unfold flat at 2; cbn [map concat]; now rewrite app_nil_r).
          assert (GO : forall cnt, s * n1 + cnt <= target_size r -> cnt <= s -> (cnt = s \/ s * n1 + cnt = target_size r) ->
             out (target_size r) (part (target_size r) 0 (flat xs)) (Some (copy_entries ops zeroA (s * n1) (s * n1 + cnt) 0 (last xs (Node l h)) y))).
          { intros cnt H1 H2 H3. destruct (copy_ok (target_size r) (s * n1) cnt 0 (last xs (Node l h)) y Wy H1) as (W2 & E2). eexists. split; [reflexivity|]. split; [exact W2|].
            apply (conv_intro R pad zeroB); [now apply (wf_len native_to Wt)|]. intros i Hi. rewrite E2 by exact Hi. cbn [Nat.add]. rewrite Fl. rewrite (wf_len native_to Wt _ _ Wy) in *.
            specialize (Fy i Hi). cbn [Nat.add] in Fy. destruct (Nat.leb_spec (s * n1) i) as [H4|H4]; cbn [andb].
            - rewrite nth_error_app2 by lia. rewrite Lf. destruct (Nat.ltb_spec i (s * n1 + cnt)) as [H5|H5].
              + rewrite (nth_error_znth zeroA) by (rewrite (wf_len native_from Wf s) by exact Wl'; lia). cbn [becomes]. rewrite Nat.add_0_r. apply (nc_entry _ _ _ _ _ _ _ Hc).
              + rewrite (proj2 (nth_error_None _ _)) by (rewrite (wf_len native_from Wf s) by exact Wl'; lia). rewrite (proj2 (nth_error_None _ _)) in Fy by lia. exact Fy.
            - rewrite nth_error_app1 by lia. exact Fy. }
          destruct (Nat.leb_spec (s * length xs) (target_size r)) as [H|H].
          -- replace (s * length xs) with (s * n1 + s) by (rewrite Ln; lia). apply GO; auto; rewrite Ln in H; lia.
          -- destruct (Nat.le_gt_cases (target_size r) (s * n1)) as [H'|H'].
             ++ unfold copy_entries. replace (target_size r - s * n1) with 0 by lia. cbn [seq fold_left]. eexists. split; [reflexivity|]. split; [exact Wy|].
                rewrite Fl. rewrite part_prefix by lia. exact (conv_intro R pad zeroB _ _ _ _ Ly Fy).
             ++ replace (copy_entries ops zeroA (s * n1) (target_size r) 0) with (copy_entries ops zeroA (s * n1) (s * n1 + (target_size r - s * n1)) 0) by (f_equal; lia). apply GO; rewrite ?Ln in *; lia.
  Qed.

  Lemma offset_step fuel : many_good fuel -> offset_good fuel -> with_good fuel -> offset_good (S fuel).
  Proof.
    intros IH1 IH2 IH3 o r s k x (W & Nv) T K G F. pose proof (target_pos r T) as Mp. pose proof (W x (or_introl eq_refl)) as Wx.
    destruct (wf_size native_from Wf s x Wx) as (Sx & Lx & Sp).
    assert (Fx : flat [x] = to_list x) by (unfold flat; cbn; apply app_nil_r).
    cbn [ArrayCast.cast_offset]. rewrite Sx. destruct o.
    - specialize (Nv eq_refl).
      assert (NM : forall m, native_to m = true -> k * m < s -> out m (part m (k * m) (to_list x)) (option_map Leaf (c_offset ops m k (leaf_of x)))).
      { intros m N H. apply out_native; [exact N|]. now apply (nc_offset _ _ _ _ _ _ _ Hc s). }
      destruct r as [m|m]; cbn [target_size target_ok] in *; [now apply NM|]. destruct (native_to m) eqn:Nm; [now apply NM|].
      pose proof (not_native_ge2 native_to Wt m T Nm) as M2. pose proof (right_left m M2) as (RL & RP). pose proof (left_size_pos m M2) as LP.
      assert (PS : part m (k * m) (to_list x) = part (left_size m) (k * m) (flat [x]) ++ part (right_size m) (k * m + left_size m) (flat [x])) by (rewrite Fx, <- part_app; f_equal; lia).
      rewrite PS. cbn [rank] in F.
      assert (O1 : out (left_size m) (part (left_size m) (k * m) (flat [x])) (with_offset fuel FromVector (ToArray (left_size m)) (k * m) [x])).
      { apply (IH3 FromVector (left_size m) s); [discriminate|split; auto|exact LP|left; split; [reflexivity|discriminate]|lia]. }
      destruct (Nat.ltb_spec (m * k + left_size m) s) as [H|H]; apply out_pair; auto.
      + apply (IH3 FromVector (right_size m) s); [discriminate|split; auto|lia|left; split; [reflexivity|discriminate]|lia].
      + rewrite part_out by (rewrite Fx, Lx; lia). apply out_zeros. lia.
    - destruct (Nat.eqb_spec k 0) as [->|K0].
      { cbn [Nat.mul]. rewrite <- Fx. apply (IH1 FromArray r s); [discriminate|split; auto|exact T|now left|cbn [rank] in *; lia]. }
      inversion Wx as [? l N0 L0|? l h N0 Wl Wh]; subst x.
      { apply (IH2 FromVector r s); [split; auto|exact T|exact K|now left|cbn [rank] in *; lia]. }
      pose proof (not_native_ge2 native_from Wf s Sp N0) as S2. pose proof (right_left s S2) as (RL & RP). pose proof (left_size_pos s S2) as LP.
      pose proof (wf_len native_from Wf _ _ Wl) as Ll. pose proof (wf_len native_from Wf _ _ Wh) as Lh.
      destruct G as [G|G]; [discriminate G|]. cbn [weight fold_right nodes rank] in F. pose proof (nodes_pos l) as NPl. pose proof (nodes_pos h) as NPh.
      set (m := target_size r) in *. set (left := left_size s) in *.
      assert (PH : left <= k * m -> part m (k * m) (to_list (Node l h)) = part m (k * m - left) (to_list h)).
      { intros H1. cbn [to_list]. rewrite part_skip by lia. f_equal. lia. }
      destruct (Nat.leb_spec left (k * m)) as [H1|H1].
      + rewrite (PH H1). destruct (Nat.eqb_spec (left mod m) 0) as [D|D].
        * assert (Q : left = m * (left / m)) by (apply Nat.div_exact; lia). assert (EK : (k - left / m) * m = k * m - left) by (rewrite Nat.mul_sub_distr_r; lia).
          rewrite <- EK. apply (IH2 FromArray r (right_size s)); [split; [intros y [<-|[]]; exact Wh|discriminate]|exact T|fold m; rewrite EK; lia| |fold m; cbn [weight fold_right rank]; lia].
          right. destruct G as [G|G]; [left; now apply pow2_half|now right].
        * assert (NP : ~ power_of_two m).
          { intros P. apply D. destruct (Nat.le_gt_cases m left) as [C|C].
            - destruct (pow2_divide m left P (left_pow2 s S2) C) as (q & ->). apply Nat.mod_mul. lia.
            - exfalso. assert (2 * left <= m). { destruct (pow2_divide left m (left_pow2 s S2) P ltac:(lia)) as (q & E). destruct q as [|[|q]]; nia. } nia. }
          destruct G as [G|G]; [|contradiction]. destruct r as [m'|m'].
          { exfalso. apply NP. cbn [target_ok] in T. exact (native_pow2 _ Wt m' T). }
          replace (to_list h) with (flat [h]) by (unfold flat; cbn; apply app_nil_r). apply (IH3 FromArray m' (right_size s)); [discriminate|split; [intros y [<-|[]]; exact Wh|discriminate]|exact T| |unfold m in F; cbn [target_size weight fold_right] in *; lia].
          left. split; [reflexivity|]. intros _. now apply pow2_half.
      + destruct (Nat.leb_spec ((k + 1) * m) left) as [H2|H2].
        * replace (part m (k * m) (to_list (Node l h))) with (part m (k * m) (to_list l)) by (cbn [to_list]; symmetry; apply part_prefix; lia).
          apply (IH2 FromArray r left); [split; [intros y [<-|[]]; exact Wl|discriminate]|exact T|exact H1|right; left; now apply left_pow2|cbn [weight fold_right rank]; fold m; lia].
        * destruct (zero_target_conv r T) as (Wz & Fz). fold m in Wz, Fz. set (cnt := Nat.min s ((k + 1) * m) - k * m).
          assert (Cm : cnt <= m) by (unfold cnt; lia). pose proof (copy_ok m 0 cnt (k * m) (Node l h) _ Wz Cm) as (W2 & E2). cbn [Nat.add] in W2, E2.
          eexists. split; [reflexivity|]. split; [exact W2|]. apply (conv_intro R pad zeroB); [now apply (wf_len native_to Wt)|]. intros i Hi. rewrite E2 by exact Hi.
          rewrite <- (part_out m 0 (@nil A)) in Fz by (cbn; lia). apply (conv_elim R pad zeroB) in Fz. destruct Fz as (_ & Fz). specialize (Fz i Hi).
          destruct (Nat.leb_spec 0 i); [|lia]. cbn [andb]. destruct (Nat.ltb_spec i cnt) as [H3|H3].
          -- rewrite (nth_error_znth zeroA) by (rewrite Lx; unfold cnt in H3; lia). cbn [becomes]. replace (i - 0 + k * m) with (k * m + i) by lia. apply (nc_entry _ _ _ _ _ _ _ Hc).
          -- rewrite (proj2 (nth_error_None _ _)) by (rewrite Lx; unfold cnt in H3; lia). destruct i; exact Fz.
  Qed.

  Lemma shift_part o s x q : wf native_from s x -> (o = FromVector -> native_from s = true) -> (o = FromArray -> power_of_two s) ->
    exists y, match o with FromVector => Some (Leaf (n_shifted moves (leaf_of x) (Z.of_nat q)))
                         | FromArray => shifted native_from moves zeroA x (Z.of_nat q) end = Some y /\
      wf native_from s y /\ nodes y = nodes x /\ forall i, i < s -> nth_error (to_list y) i = Some (znth zeroA (to_list x) (Z.of_nat (i + q))).
  Proof.
    intros W Nv P. destruct (wf_size native_from Wf s x W) as (Sx & Lx & Sp).
    assert (K : forall y, wf native_from s y -> to_list y = tab s (fun i => znth zeroA (to_list x) (i + Z.of_nat q)%Z) ->
      forall i, i < s -> nth_error (to_list y) i = Some (znth zeroA (to_list x) (Z.of_nat (i + q)))).
    { intros y Wy E i Hi. rewrite (nth_error_znth zeroA) by (rewrite (wf_len native_from Wf _ _ Wy); exact Hi). rewrite E, znth_tab by lia. f_equal. f_equal. lia. }
    assert (NN : forall y, wf native_from s y -> nodes y = nodes x).
    { revert W. clear. intros W y Wy. revert x W. induction Wy as [n xs N L|n l r N Wl IHl Wr IHr]; intros x W; inversion W; subst; try congruence; cbn [nodes]; auto. }
    destruct o.
    - specialize (Nv eq_refl). inversion W as [? l N0 L0|]; subst; [|congruence]. cbn [leaf_of to_list]. eexists. split; [reflexivity|].
      rewrite (nm_shifted _ _ _ Hm) by exact Nv. assert (Wy : wf native_from (length l) (Leaf (shift_spec zeroA l (Z.of_nat q)))) by (constructor; [exact Nv|unfold shift_spec; apply tab_length]).
      split; [exact Wy|]. split; [auto|]. apply (K _ Wy). reflexivity.
    - destruct (shifted_pow2_good native_from moves zeroA Wf Hm s x (Z.of_nat q) (P eq_refl) W) as (y & E & Wy & L). exists y. split; [exact E|]. split; [exact Wy|]. split; [auto|]. now apply K.
  Qed.

  Lemma with_step fuel : many_good fuel -> offset_good fuel -> with_good fuel -> with_good (S fuel).
  Proof.
    intros IH1 IH2 IH3 o m s off xs NE (W & Nv) M C F. destruct xs as [|x xs']; [congruence|]. pose proof (W x (or_introl eq_refl)) as Wx.
    destruct (wf_size native_from Wf s x Wx) as (Sx & Lx & Sp). cbn [ArrayCast.with_offset target_size]. rewrite Sx.
    destruct (Nat.eqb_spec off 0) as [->|O0].
    { apply (IH1 o (ToArray m) s); [discriminate|split; auto|exact M| |cbn [target_size]; destruct o; cbn [rank]; lia].
      destruct C as [(C & _)|(-> & C1 & _ & _ & C2)]; [now left|right; cbn [target_size]; lia]. }
    destruct (Nat.leb_spec s off) as [H|H].
    - destruct xs' as [|x1 xs'].
      + unfold flat. cbn [map concat]. rewrite app_nil_r, part_out by lia. now apply out_zeros.
      + destruct C as [(C & _)|(-> & C1 & (q & ->) & C3 & C4)]; [discriminate C|]. unfold flat. cbn [map concat]. rewrite part_skip by lia. rewrite Lx.
        apply (IH3 FromVector m s); [discriminate|split; [intros y I; apply W; now right|auto]|exact M| |cbn [weight fold_right] in *; pose proof (nodes_pos x); lia].
        cbn [length] in *. destruct xs' as [|x2 xs'].
        * left. split; [reflexivity|discriminate].
        * right. cbn [length] in *. split; [reflexivity|]. split; [lia|]. split; [exists (q - 1); rewrite Nat.mul_sub_distr_r; lia|]. split; lia.
    - destruct xs' as [|x1 xs'].
      2:{ exfalso. destruct C as [(C & _)|(-> & C1 & (q & ->) & C3 & C4)]; [discriminate C|]. destruct q; [lia|nia]. }
      assert (P : o = FromArray -> power_of_two s) by (destruct C as [(_ & C)|(_ & C & _)]; [exact C|cbn in C; lia]).
      assert (G : o = FromVector \/ power_of_two s \/ power_of_two m) by (destruct o; auto).
      assert (Fx : flat [x] = to_list x) by (unfold flat; cbn; apply app_nil_r). rewrite Fx.
      destruct (Nat.eqb_spec (off mod m) 0) as [D|D].
      + assert (Q : off / m * m = off) by (rewrite Nat.mul_comm; symmetry; apply Nat.div_exact; lia). rewrite <- Q at 1.
        apply (IH2 o (ToArray m) s); [split; auto|exact M|cbn [target_size]; lia|exact G|cbn [target_size]; destruct o; cbn [rank]; lia].
      + destruct (native_to m) eqn:Nm.
        * destruct (shift_part o s x (off mod m) Wx Nv P) as (y & -> & Wy & Ny & Ey). pose proof (Nat.div_mod off m ltac:(lia)) as DM. pose proof (Nat.mod_upper_bound off m ltac:(lia)) as MB.
          assert (KL : off / m * m < s) by lia.
          destruct (IH2 o (ToArray m) s (off / m) y) as (t & Et & Wt' & Ft); [split; [intros z [<-|[]]; exact Wy|exact Nv]|exact M|exact KL|exact G|cbn [target_size weight fold_right] in *; rewrite Ny; destruct o; cbn [rank]; lia|].
          cbn [target_size] in *. exists t. split; [exact Et|]. split; [exact Wt'|]. apply (conv_elim R pad zeroB) in Ft. destruct Ft as (Lt & Ft). apply (conv_intro R pad zeroB); [exact Lt|].
          intros i Hi. specialize (Ft i Hi). destruct (Nat.lt_ge_cases (off / m * m + i) s) as [H1|H1].
          -- rewrite Ey in Ft by exact H1. cbn [becomes] in Ft. destruct (Nat.lt_ge_cases (off + i) s) as [H2|H2].
             ++ rewrite (nth_error_znth zeroA) by lia. cbn [becomes]. replace (off + i) with (off / m * m + i + off mod m) by lia. exact Ft.
             ++ rewrite (proj2 (nth_error_None _ _)) by lia. cbn [becomes]. rewrite znth_out in Ft by lia. now apply (nc_zero _ _ _ _ _ _ _ Hc).
          -- rewrite (proj2 (nth_error_None _ _)) in Ft by (rewrite (wf_len native_from Wf _ _ Wy); exact H1). rewrite (proj2 (nth_error_None _ _)) by lia. exact Ft.
        * pose proof (not_native_ge2 native_to Wt m M Nm) as M2. pose proof (right_left m M2) as (RL & RP). pose proof (left_size_pos m M2) as LP.
          replace (part m off (to_list x)) with (part (left_size m) off (flat [x]) ++ part (right_size m) (off + left_size m) (flat [x])) by (rewrite Fx, <- part_app; f_equal; lia).
          apply out_pair; auto; apply (IH3 o _ s); auto; try (split; auto); try lia; left; split; auto.
  Qed.

  Lemma all_good fuel : many_good fuel /\ offset_good fuel /\ with_good fuel.
  Proof.
    induction fuel as [|fuel (IH1 & IH2 & IH3)].
    - repeat split; intros o; intros; exfalso; lia.
    - split; [now apply many_step|]. split; [now apply offset_step|now apply with_step].
  Qed.

  Lemma weight_size o s xs : args o s xs -> weight xs + length xs <= 2 * fold_right (fun x t => size x + t) 0 xs.
  Proof.
    intros (W & _). induction xs as [|x xs IH]; [cbn; lia|]. cbn [weight fold_right length]. pose proof (nodes_size s x (W x (or_introl eq_refl))) as N. rewrite <- (wf_sz native_from Wf s x) in N by (apply W; now left).
    specialize (IH (fun y I => W y (or_intror I))). unfold weight in IH. lia.
  Qed.

  (** * The functions *)
  Lemma array_cast_ok r s xs : xs <> [] -> (forall x, In x xs -> wf native_from s x) -> target_ok r -> length xs = 1 \/ (length xs - 1) * s < target_size r ->
    exists t, array_cast native_from native_to moves ops zeroA zeroB r xs = Some t /\ wf native_to (target_size r) t /\ conv (target_size r) 0 (flat xs) (to_list t).
  Proof.
    intros NE W T C. assert (Ar : args FromArray s xs) by (split; [exact W|discriminate]). destruct (all_good (cast_fuel r xs)) as (G & _ & _). apply (G FromArray r s); auto.
    - destruct C as [C|C]; [now left|]. destruct (Nat.eq_dec (length xs) 1) as [L|L]; [now left|]. right. destruct xs as [|x [|x' xs]]; cbn [length] in *; [congruence|lia|]. nia.
    - pose proof (weight_size _ _ _ Ar). unfold cast_fuel. cbn [rank]. lia.
  Qed.
  Lemma array_cast_offset_ok r s k x : wf native_from s x -> target_ok r -> k * target_size r < s -> power_of_two s \/ power_of_two (target_size r) ->
    exists t, array_cast_offset native_from native_to moves ops zeroA zeroB r k x = Some t /\ wf native_to (target_size r) t /\ conv (target_size r) (k * target_size r) (to_list x) (to_list t).
  Proof.
    intros W T K G. assert (Ar : args FromArray s [x]) by (split; [intros y [<-|[]]; exact W|discriminate]). destruct (all_good (cast_fuel r [x])) as (_ & H & _). apply (H FromArray r s); auto.
    pose proof (weight_size _ _ _ Ar). unfold cast_fuel. cbn [rank]. lia.
  Qed.
  Lemma leaf_args s xs : native_from s = true -> (forall x, In x xs -> length x = s) -> args FromVector s (map Leaf xs).
  Proof. intros N L. split; [|auto]. intros y I. apply in_map_iff in I. destruct I as (l & <- & I). constructor; auto. Qed.
  Lemma flat_leaf (xs : list (list A)) : flat (map Leaf xs) = concat xs.
  Proof. unfold flat. rewrite map_map. cbn [to_list]. now rewrite map_id. Qed.
  Lemma vector_cast_ok r s xs : xs <> [] -> native_from s = true -> (forall x, In x xs -> length x = s) -> target_ok r -> length xs = 1 \/ (length xs - 1) * s < target_size r ->
    exists t, vector_cast native_from native_to moves ops zeroA zeroB r xs = Some t /\ wf native_to (target_size r) t /\ conv (target_size r) 0 (concat xs) (to_list t).
  Proof.
    intros NE N L T C. pose proof (leaf_args s xs N L) as Ar. rewrite <- flat_leaf. destruct (all_good (cast_fuel r (map Leaf xs))) as (G & _ & _). apply (G FromVector r s); auto.
    - intros E. apply NE. now destruct xs.
    - unfold many_cond. now rewrite map_length.
    - pose proof (weight_size _ _ _ Ar). unfold cast_fuel. cbn [rank]. lia.
  Qed.
  Lemma vector_cast_offset_ok r s k x : native_from s = true -> length x = s -> target_ok r -> k * target_size r < s ->
    exists t, vector_cast_offset native_from native_to moves ops zeroA zeroB r k x = Some t /\ wf native_to (target_size r) t /\ conv (target_size r) (k * target_size r) x (to_list t).
  Proof.
    intros N L T K. assert (Ar : args FromVector s [Leaf x]) by (apply (leaf_args s [x]); [exact N|intros y [<-|[]]; exact L]). destruct (all_good (cast_fuel r [Leaf x])) as (_ & H & _).
    apply (H FromVector r s k (Leaf x)); auto. pose proof (weight_size _ _ _ Ar). unfold cast_fuel. cbn [rank]. lia.
  Qed.

  (** * The constructors and the conversion operator *)
  Lemma segment_ok fuel : forall m w index x, m < fuel -> power_of_two m -> native_from w = true -> length x = w -> (index + 1) * m <= w ->
    out m (part m (index * m) x) (from_segment native_to ops fuel m index x).
  Proof.
    induction fuel as [|fuel IH]; intros m w index x F P N L H; [lia|]. cbn [from_segment].
    assert (M1 : 1 <= m) by (destruct P as (j & ->); pose proof (Nat.pow_nonzero 2 j ltac:(lia)); lia).
    destruct (native_to m) eqn:Nm.
    - apply out_native; [exact Nm|]. apply (nc_offset _ _ _ _ _ _ _ Hc w); auto. lia.
    - pose proof (not_native_ge2 native_to Wt m M1 Nm) as M2. destruct (pow2_half m M2 P) as (E & E' & P'). rewrite <- E in *.
      pose proof (left_size_pos m M2) as LP.
      assert (EP : part m (index * m) x = part (left_size m) (2 * index * left_size m) x ++ part (left_size m) ((2 * index + 1) * left_size m) x).
      { transitivity (part (left_size m + left_size m) (2 * index * left_size m) x); [f_equal; [lia|]|rewrite part_app; f_equal; f_equal; lia]. rewrite E' at 1. lia. }
      rewrite EP.
      apply out_pair; auto; [|rewrite <- E]; apply (IH _ w); auto; nia.
  Qed.

  Lemma leaf_wf s (xs : list A) : wf native_from s (Leaf xs) -> native_from s = true /\ length xs = s.
  Proof. intros W. now inversion W. Qed.
  Lemma node_wf s (l h : sa A) : wf native_from s (Node l h) -> native_from s = false /\ wf native_from (left_size s) l /\ wf native_from (right_size s) h.
  Proof. intros W. now inversion W. Qed.

  Lemma construct_ok : (forall m, native_to m = true -> native_from m = true \/ (exists w, m = 2 * w /\ native_from w = true) \/ (exists w, m = 4 * w /\ native_from w = true)) ->
    forall fuel m x, m < fuel -> wf native_from m x -> out m (part m 0 (to_list x)) (construct native_to ops fuel m x).
  Proof.
    intros D. induction fuel as [|fuel IH]; intros m x F W; [lia|]. cbn [construct]. destruct (wf_size native_from Wf m x W) as (_ & Lx & M1). destruct (native_to m) eqn:Nm.
    - assert (MANY : forall w xs, native_from w = true -> xs <> [] -> (forall y, In y xs -> length y = w) -> (length xs - 1) * w < m -> concat xs = to_list x ->
        out m (part m 0 (to_list x)) (option_map Leaf (c_many ops m xs))).
      { intros w xs N NE L H E. rewrite <- E. apply out_native; [exact Nm|]. now apply (nc_many _ _ _ _ _ _ _ Hc w). }
      destruct (native_from m) eqn:Nf.
      + inversion W as [? l N0 L0|? l h N0 Wl Wh]; subst; [|congruence]. apply (MANY (length l)); [exact Nf|discriminate|intros y [<-|[]]; reflexivity|cbn [length]; lia|cbn; apply app_nil_r].
      + destruct x as [l|l h]; [apply leaf_wf in W as (N0 & L0); congruence|apply node_wf in W as (N0 & Wl & Wh)].
        pose proof (not_native_ge2 native_from Wf m M1 Nf) as M2. destruct (pow2_half m M2 (native_pow2 _ Wt m Nm)) as (E & E' & P'). rewrite <- E in *.
        destruct (native_from (left_size m)) eqn:Nf2.
        * destruct l as [a|]; [apply leaf_wf in Wl as (Na & La)|apply node_wf in Wl as (? & _); congruence]. destruct h as [b|]; [apply leaf_wf in Wh as (Nb & Lb)|apply node_wf in Wh as (? & _); congruence].
          apply (MANY (left_size m)); [exact Nf2|discriminate|intros y [<-|[<-|[]]]; congruence|cbn [length]; lia|cbn; now rewrite app_nil_r].
        * pose proof (left_size_pos m M2) as LP. pose proof (not_native_ge2 native_from Wf _ LP Nf2) as M4. destruct (pow2_half _ M4 P') as (Q & Q' & _).
          assert (N4 : native_from (left_size (left_size m)) = true).
          { destruct (D m Nm) as [K|[(w & K & Kw)|(w & K & Kw)]]; [congruence| |].
            - assert (w = left_size m) by lia. subst w. congruence.
            - assert (w = left_size (left_size m)) by lia. now subst w. }
          destruct l as [|a b]; [apply leaf_wf in Wl as (? & _); congruence|apply node_wf in Wl as (Na & Wa & Wb)]. destruct h as [|c d]; [apply leaf_wf in Wh as (? & _); congruence|apply node_wf in Wh as (Nc & Wc & Wd)]. rewrite <- Q in *.
          destruct a as [a'|]; [apply leaf_wf in Wa as (Na' & La)|apply node_wf in Wa as (? & _); congruence]. destruct b as [b'|]; [apply leaf_wf in Wb as (Nb' & Lb)|apply node_wf in Wb as (? & _); congruence]. destruct c as [c'|]; [apply leaf_wf in Wc as (Nc' & Lc)|apply node_wf in Wc as (? & _); congruence]. destruct d as [d'|]; [apply leaf_wf in Wd as (Nd' & Ld)|apply node_wf in Wd as (? & _); congruence].
          apply (MANY (left_size (left_size m))); [exact N4|discriminate|intros y [<-|[<-|[<-|[<-|[]]]]]; congruence|cbn [length]; lia|cbn; now rewrite app_nil_r, !app_assoc].
    - pose proof (not_native_ge2 native_to Wt m M1 Nm) as M2. pose proof (right_left m M2) as (RL & RP). pose proof (left_size_pos m M2) as LP. pose proof (left_size_lt m M2) as LT.
      destruct x as [l|l h]; [apply leaf_wf in W as (N0 & L0); subst m|apply node_wf in W as (N0 & Wl & Wh)].
      + destruct (pow2_half _ M2 (native_pow2 _ Wf _ N0)) as (E & E' & P'). cbn [to_list] in *. set (m := length l) in *.
        replace (part m 0 l) with (part (left_size m) (0 * left_size m) l ++ part (right_size m) (1 * right_size m) l) by (rewrite <- E, !Nat.mul_1_l; cbn [Nat.mul]; change (left_size m) with (0 + left_size m) at 3; rewrite <- part_app; f_equal; lia).
        apply out_pair; auto.
        * apply (segment_ok fuel _ m); auto; try lia. now apply left_pow2.
        * apply (segment_ok fuel _ m); auto; lia.
      + pose proof (wf_len native_from Wf _ _ Wl) as Ll. pose proof (wf_len native_from Wf _ _ Wh) as Lh.
        replace (part m 0 (to_list (Node l h))) with (part (left_size m) 0 (to_list l) ++ part (right_size m) 0 (to_list h)).
        { apply out_pair; auto; apply IH; auto; lia. }
        cbn [to_list]. rewrite <- (part_prefix (left_size m) 0 (to_list l) (to_list h)) by lia.
        replace (part (right_size m) 0 (to_list h)) with (part (right_size m) (0 + left_size m) (to_list l ++ to_list h)) by (rewrite part_skip by lia; f_equal; lia).
        rewrite <- part_app. f_equal. exact RL.
  Qed.

  Lemma to_native_ok m x : native_to m = true -> wf native_from m x ->
    exists t, to_native native_from native_to moves ops zeroA zeroB m x = Some t /\ wf native_to m t /\ conv m 0 (to_list x) (to_list t).
  Proof.
    intros N W. destruct (wf_size native_from Wf m x W) as (_ & Lx & M1). destruct x as [l|l h]; [apply leaf_wf in W as (N0 & L0); subst m|apply node_wf in W as (N0 & Wl & Wh)]; cbn [to_native].
    - replace (to_list (Leaf l)) with (concat [l]) by (cbn; apply app_nil_r). apply out_native; [exact N|]. apply (nc_many _ _ _ _ _ _ _ Hc (length l)); [exact N0|exact N|discriminate|intros y [<-|[]]; reflexivity|cbn [length]; lia].
    - pose proof (not_native_ge2 native_from Wf m M1 N0) as M2. destruct (pow2_half m M2 (native_pow2 _ Wt m N)) as (E & E' & P'). pose proof (left_size_pos m M2) as LP. rewrite <- E in *.
      replace (to_list (Node l h)) with (flat [l; h]) by (unfold flat; cbn; now rewrite app_nil_r). apply (array_cast_ok (ToVector m) (left_size m)).
      + discriminate.
      + intros y [<-|[<-|[]]]; assumption.
      + exact N.
      + right. cbn [length target_size]. lia.
  Qed.
End Cast.
