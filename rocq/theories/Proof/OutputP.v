From Coq Require Import ZArith Bool Ascii String List Lia.
From Verif.Spec Require Import Seq OutputSpec.
From Verif.Model Require Import Mem SimdArray MemoryClass Output.
Import ListNotations.
Local Open Scope Z_scope.

(** * Visible text *)
Lemma visible_plain a b : plain a -> visible (a ++ b) = a ++ visible b.
Proof.
  unfold visible. induction a as [|c a IH]; intro P; [reflexivity|].
  cbn [app visible_from]. destruct (Ascii.eqb_spec c ESC) as [E|E].
  - exfalso. apply P. left. exact E.
  - f_equal. apply IH. intro Q. apply P. right. exact Q.
Qed.
Lemma visible_plain_only a : plain a -> visible a = a.
Proof. intro P. rewrite <- (app_nil_r a) at 1. rewrite visible_plain by exact P. apply app_nil_r. Qed.

(** texts made of plain text and whole escape sequences *)
Definition closed (t : list ascii) : Prop := forall b, visible (t ++ b) = visible t ++ visible b.
Lemma closed_plain t : plain t -> closed t.
Proof. intros P b. rewrite (visible_plain t b P), (visible_plain_only t P). reflexivity. Qed.
Lemma closed_app a b : closed a -> closed b -> closed (a ++ b).
Proof. intros Ha Hb c. rewrite <- app_assoc, Ha, Hb, Ha, app_assoc. reflexivity. Qed.
Lemma closed_nil : closed [].
Proof. intro b. reflexivity. Qed.
Lemma closed_green k : closed (color k green).
Proof. intro b. destruct k; reflexivity. Qed.
Lemma closed_yellow k : closed (color k yellow).
Proof. intro b. destruct k; reflexivity. Qed.
Lemma closed_blue k : closed (color k blue).
Proof. intro b. destruct k; reflexivity. Qed.
Lemma closed_normal k : closed (color k normal).
Proof. intro b. destruct k; reflexivity. Qed.
Lemma vis_green k : visible (color k green) = [].
Proof. destruct k; reflexivity. Qed.
Lemma vis_yellow k : visible (color k yellow) = [].
Proof. destruct k; reflexivity. Qed.
Lemma vis_blue k : visible (color k blue) = [].
Proof. destruct k; reflexivity. Qed.
Lemma vis_normal k : visible (color k normal) = [].
Proof. destruct k; reflexivity. Qed.
Fixpoint plainb (t : list ascii) : bool := match t with [] => true | c :: t' => negb (Ascii.eqb c ESC) && plainb t' end.
Lemma plainb_ok t : plainb t = true -> plain t.
Proof.
  induction t as [|c t IH]; intros H Q; [exact Q|]. cbn in H. apply andb_prop in H. destruct H as [H1 H2].
  destruct Q as [Q|Q]; [subst c; discriminate H1|exact (IH H2 Q)].
Qed.
Lemma closed_lit s : plainb (lit s) = true -> closed (lit s).
Proof. intro H. apply closed_plain, plainb_ok, H. Qed.
Lemma plain_app a b : plain a -> plain b -> plain (a ++ b).
Proof. intros P Q I. apply in_app_or in I. destruct I; auto. Qed.

(** * The loop *)
Lemma for_each_ok (body : Z -> option text) n : forall i ts,
  length ts = n -> (forall k, (k < n)%nat -> body (i + Z.of_nat k) = nth_error ts k) ->
  for_each n i body = Some (concat ts).
Proof.
  induction n as [|n IH]; intros i ts L H.
  - destruct ts; [reflexivity|discriminate L].
  - destruct ts as [|t ts]; [discriminate L|]. cbn [for_each].
    pose proof (H 0%nat ltac:(lia)) as H0. rewrite Z.add_0_r in H0. rewrite H0. cbn [nth_error obind].
    rewrite (IH (i + 1) ts).
    + reflexivity.
    + injection L as L. exact L.
    + intros k Hk. replace (i + 1 + Z.of_nat k) with (i + Z.of_nat (S k)) by lia. rewrite H by lia. reflexivity.
Qed.

Lemma entry_at_nat {A} (xs : list A) k : entry_at xs (Z.of_nat k) = nth_error xs k.
Proof. unfold entry_at. destruct (Z.ltb_spec (Z.of_nat k) 0); [lia|]. rewrite Nat2Z.id. reflexivity. Qed.

(** * Vectors *)
Lemma join_cons {A} (sep x : list A) xs : join sep (x :: xs) = x ++ concat (map (fun y => sep ++ y) xs).
Proof.
  revert x. induction xs as [|y xs IH]; intro x.
  - cbn. rewrite app_nil_r. reflexivity.
  - change (join sep (x :: y :: xs)) with (x ++ sep ++ join sep (y :: xs)). rewrite IH.
    cbn [map concat]. rewrite <- app_assoc. reflexivity.
Qed.

Lemma closed_concat ts : Forall closed ts -> closed (concat ts).
Proof. induction 1; [exact closed_nil|]. cbn [concat]. apply closed_app; assumption. Qed.
Lemma visible_concat ts : Forall closed ts -> visible (concat ts) = concat (map visible ts).
Proof. induction 1 as [|t ts C F IH]; [reflexivity|]. cbn [concat map]. rewrite C, IH. reflexivity. Qed.

Section Vec.
  Context {A : Type} (fmt : A -> text) (terminal : bool).

  Lemma put_vector_text a xs at_ :
    (forall k, (k < S (length xs))%nat -> at_ (Z.of_nat k) = nth_error (a :: xs) k) ->
    put_vector terminal fmt (S (length xs)) at_ =
    Some (color terminal green ++ lit "[" ++ join (lit ", ") (map fmt (a :: xs)) ++ lit "]" ++ color terminal normal).
  Proof.
    intro H. unfold put_vector.
    pose proof (H 0%nat ltac:(lia)) as H0. change (Z.of_nat 0) with 0 in H0. rewrite H0. cbn [nth_error obind].
    replace (S (length xs) - 1)%nat with (length xs) by lia.
    rewrite (for_each_ok _ _ 1 (map (fun x => lit ", " ++ fmt x) xs)).
    - cbn [obind]. rewrite (map_cons fmt), join_cons, map_map, <- !app_assoc. reflexivity.
    - apply map_length.
    - intros k Hk. replace (1 + Z.of_nat k) with (Z.of_nat (S k)) by lia. rewrite H by lia. cbn [nth_error].
      rewrite nth_error_map. destruct (nth_error xs k); reflexivity.
  Qed.

  Lemma plain_join (sep : list ascii) ts : plain sep -> Forall plain ts -> plain (join sep ts).
  Proof.
    intros S F. induction F as [|t ts P F IH]; [exact (fun q => q)|].
    destruct ts as [|u ts]; [exact P|]. change (plain (t ++ sep ++ join sep (u :: ts))). auto using plain_app.
  Qed.

  Definition vector_text (xs : list A) : text := lit "[" ++ join (lit ", ") (map fmt xs) ++ lit "]".
  Lemma vector_visible xs : Forall plain (map fmt xs) ->
    let t := color terminal green ++ lit "[" ++ join (lit ", ") (map fmt xs) ++ lit "]" ++ color terminal normal in
    closed t /\ visible t = vector_text xs.
  Proof.
    intro F. assert (P : plain (join (lit ", ") (map fmt xs))) by (apply plain_join; [apply plainb_ok; reflexivity|exact F]).
    assert (P1 : plain (lit "[")) by (apply plainb_ok; reflexivity).
    assert (P2 : plain (lit "]")) by (apply plainb_ok; reflexivity).
    intro t; subst t; split.
    - repeat apply closed_app; auto using closed_green, closed_normal, closed_plain.
    - rewrite (closed_green terminal), vis_green. rewrite (visible_plain (lit "[")), (visible_plain _ _ P), (visible_plain _ _ P2) by exact P1.
      rewrite vis_normal, app_nil_r. reflexivity.
  Qed.
End Vec.

(** * Numbers *)
Lemma digit_of d : 0 <= d <= 9 -> digit_value (chr (Z.to_N (48 + d))) = Some d.
Proof.
  intro H. assert (E : d = 0 \/ d = 1 \/ d = 2 \/ d = 3 \/ d = 4 \/ d = 5 \/ d = 6 \/ d = 7 \/ d = 8 \/ d = 9) by lia.
  repeat (destruct E as [E|E]; [subst d; reflexivity|]). subst d. reflexivity.
Qed.
Lemma unsigned_snoc a c : forall acc, unsigned_value acc (a ++ [c]) =
  match unsigned_value acc a with Some v => match digit_value c with Some d => Some (10 * v + d) | None => None end | None => None end.
Proof.
  induction a as [|x a IH]; intro acc; cbn [app unsigned_value].
  - destruct (digit_value c); reflexivity.
  - destruct (digit_value x); [apply IH|reflexivity].
Qed.
Lemma digits_value f : forall z, 0 <= z < 10 ^ Z.of_nat f -> unsigned_value 0 (digits f z) = Some z.
Proof.
  induction f as [|f IH]; intros z H.
  - change (10 ^ Z.of_nat 0) with 1 in H. replace z with 0 by lia. reflexivity.
  - cbn [digits]. rewrite unsigned_snoc. pose proof (Z.mod_pos_bound z 10 ltac:(lia)) as M.
    rewrite digit_of by lia. pose proof (Z.div_mod z 10 ltac:(lia)) as D.
    destruct (Z.ltb_spec z 10).
    + cbn [unsigned_value]. f_equal. rewrite Z.mod_small by lia. lia.
    + rewrite IH.
      * f_equal. lia.
      * rewrite Nat2Z.inj_succ, Z.pow_succ_r in H by lia. split; [apply Z.div_pos; lia|].
        apply Z.div_lt_upper_bound; lia.
Qed.
Lemma digits_nonempty f z : digits (S f) z <> [].
Proof. cbn [digits]. intro H. apply app_eq_nil in H. destruct H as [_ H]. discriminate H. Qed.
Definition is_digit (c : ascii) : Prop := exists d, digit_value c = Some d.
Lemma digits_digits f : forall z, 0 <= z -> Forall is_digit (digits f z).
Proof.
  induction f as [|f IH]; intros z H; [constructor|]. cbn [digits]. apply Forall_app. split.
  - destruct (z <? 10); [constructor|]. apply IH. apply Z.div_pos; lia.
  - constructor; [|constructor]. exists (z mod 10). apply digit_of. pose proof (Z.mod_pos_bound z 10 ltac:(lia)); lia.
Qed.
Lemma fuel_enough z : 0 <= z -> 0 <= z < 10 ^ Z.of_nat (S (Z.to_nat (Z.log2 z))).
Proof.
  intro H. split; [exact H|]. rewrite Nat2Z.inj_succ, Z2Nat.id by apply Z.log2_nonneg.
  destruct (Z.eq_dec z 0) as [->|N]; [reflexivity|].
  apply Z.lt_le_trans with (2 ^ Z.succ (Z.log2 z)); [apply Z.log2_spec; lia|].
  apply Z.pow_le_mono_l. lia.
Qed.
Lemma minus_not_digit : digit_value "-"%char = None.
Proof. reflexivity. Qed.
Lemma put_int_value z : number_value (put_int z) = Some z.
Proof.
  unfold put_int. destruct (Z.ltb_spec z 0).
  - unfold number_value. cbn [Ascii.eqb]. change (Ascii.eqb "-" "-") with true. cbv iota.
    pose proof (digits_value (S (Z.to_nat (Z.log2 (- z)))) (- z) (fuel_enough (- z) ltac:(lia))) as V.
    pose proof (digits_nonempty (Z.to_nat (Z.log2 (- z))) (- z)) as N.
    destruct (digits _ (- z)); [contradiction|]. rewrite V. cbn [option_map]. rewrite Z.opp_involutive. reflexivity.
  - pose proof (digits_value (S (Z.to_nat (Z.log2 z))) z (fuel_enough z ltac:(lia))) as V.
    pose proof (digits_nonempty (Z.to_nat (Z.log2 z)) z) as N.
    pose proof (digits_digits (S (Z.to_nat (Z.log2 z))) z ltac:(lia)) as D.
    destruct (digits _ z) as [|c t]; [contradiction|]. unfold number_value.
    destruct (Ascii.eqb_spec c "-"%char) as [E|E]; [|exact V].
    subst c. inversion D as [|? ? [d Hd]]. discriminate Hd.
Qed.
Lemma digit_number c : is_digit c -> number_char c = true.
Proof. intros [d H]. unfold number_char. rewrite H. apply orb_true_r. Qed.
Lemma put_int_chars z : put_int z <> [] /\ Forall (fun c => number_char c = true) (put_int z).
Proof.
  unfold put_int. destruct (Z.ltb_spec z 0); split.
  - discriminate.
  - constructor; [reflexivity|]. eapply Forall_impl; [exact digit_number|]. apply digits_digits. lia.
  - apply digits_nonempty.
  - eapply Forall_impl; [exact digit_number|]. apply digits_digits. lia.
Qed.
Lemma put_int_plain z : plain (put_int z).
Proof.
  intro I. pose proof (proj2 (put_int_chars z)) as F. rewrite Forall_forall in F. specialize (F _ I). discriminate F.
Qed.

(** * Reading the numbers back *)
Definition starts_other (t : list ascii) : Prop := match t with [] => True | c :: _ => number_char c = false end.
Lemma words_word w : forall cur t, Forall (fun c => number_char c = true) w -> cur ++ w <> [] -> starts_other t ->
  words cur (w ++ t) = (cur ++ w) :: words [] t.
Proof.
  induction w as [|c w IH]; intros cur t F N S.
  - rewrite app_nil_r in *. cbn [app]. destruct cur as [|x cur]; [contradiction|].
    destruct t as [|c t]; [reflexivity|]. cbn [words starts_other] in *. rewrite S. reflexivity.
  - inversion F as [|? ? F1 F2]; subst. cbn [app words]. rewrite F1.
    rewrite IH; try assumption.
    + rewrite <- app_assoc. reflexivity.
    + rewrite <- app_assoc. destruct cur; discriminate.
Qed.
Lemma words_other c t : number_char c = false -> words [] (c :: t) = words [] t.
Proof. intro H. cbn [words]. rewrite H. reflexivity. Qed.
Lemma words_int z t : starts_other t -> words [] (put_int z ++ t) = put_int z :: words [] t.
Proof.
  intro S. destruct (put_int_chars z) as [N F]. apply (words_word (put_int z) [] t); assumption.
Qed.
(** separators *)
Lemma words_sep s : forall t, Forall (fun c => number_char c = false) s -> words [] (s ++ t) = words [] t.
Proof.
  induction s as [|c s IH]; intros t F; [reflexivity|]. inversion F; subst. cbn [app]. rewrite words_other by assumption. auto.
Qed.
Lemma words_steps (seps : list (list ascii)) : forall zs t, length seps = length zs -> starts_other t ->
  Forall (fun s => s <> [] /\ Forall (fun c => number_char c = false) s) seps ->
  starts_other (concat (map2 (fun s z => s ++ put_int z) seps zs) ++ t) /\
  words [] (concat (map2 (fun s z => s ++ put_int z) seps zs) ++ t) = map put_int zs ++ words [] t.
Proof.
  induction seps as [|s seps IH]; intros zs t L S F; destruct zs as [|z zs]; try discriminate L.
  - split; [exact S|reflexivity].
  - inversion F as [|? ? [N O] F2]; subst. injection L as L. destruct (IH zs t L S F2) as [S1 W1].
    cbn [map2 concat map]. rewrite <- !app_assoc. split.
    + destruct s as [|c s]; [contradiction|]. inversion O; subst. cbn [app starts_other]. assumption.
    + rewrite words_sep by exact O. rewrite words_int by exact S1. rewrite W1. reflexivity.
Qed.
Lemma values_back zs : map number_value (map put_int zs) = map Some zs.
Proof. rewrite map_map. apply map_ext. exact put_int_value. Qed.

(** * Groups of four *)
Section Groups.
  Context (inner outer : list ascii).
  Definition sep_at (i : Z) : list ascii := if i mod 4 =? 0 then outer else inner.
  Fixpoint tail_from (i : Z) (ts : list (list ascii)) : list ascii :=
    match ts with [] => [] | t :: ts' => (sep_at i ++ t) ++ tail_from (i + 1) ts' end.
  Lemma sep_other i : i mod 4 <> 0 -> sep_at i = inner.
  Proof. intro H. unfold sep_at. destruct (Z.eqb_spec (i mod 4) 0); [contradiction|reflexivity]. Qed.
  Lemma sep_four i : i mod 4 = 0 -> sep_at i = outer.
  Proof. intro H. unfold sep_at. rewrite H. reflexivity. Qed.
  Lemma mod4 i k : i mod 4 = 0 -> 0 <= k < 4 -> (i + k) mod 4 = k.
  Proof. intros H K. rewrite Z.add_mod, H, Z.add_0_l, Z.mod_mod, Z.mod_small; lia. Qed.
  Lemma fours_join : forall ts t i, i mod 4 = 0 ->
    join outer (map (join inner) (fours (t :: ts))) = t ++ tail_from (i + 1) ts.
  Proof.
    intro ts. assert (G : forall n ts, (length ts <= n)%nat -> forall t i, i mod 4 = 0 ->
      join outer (map (join inner) (fours (t :: ts))) = t ++ tail_from (i + 1) ts).
    2: { intros t i. apply (G (length ts)). lia. }
    clear ts. induction n as [|n IH]; intros ts L t i M.
    - destruct ts; [|cbn in L; lia]. cbn. rewrite app_nil_r. reflexivity.
    - assert (S1 : sep_at (i + 1) = inner) by (apply sep_other; rewrite (mod4 i 1 M); lia).
      assert (S2 : sep_at (i + 1 + 1) = inner) by (apply sep_other; replace (i + 1 + 1) with (i + 2) by lia; rewrite (mod4 i 2 M); lia).
      assert (S3 : sep_at (i + 1 + 1 + 1) = inner) by (apply sep_other; replace (i + 1 + 1 + 1) with (i + 3) by lia; rewrite (mod4 i 3 M); lia).
      destruct ts as [|b [|c [|d ts]]]; cbn [fours map tail_from]; rewrite ?S1, ?S2, ?S3.
      + cbn. rewrite app_nil_r. reflexivity.
      + cbn [join]. rewrite app_nil_r, <- ?app_assoc. reflexivity.
      + cbn [join]. rewrite app_nil_r, <- ?app_assoc. reflexivity.
      + destruct ts as [|e ts].
        * cbn [join fours map tail_from]. rewrite app_nil_r, <- ?app_assoc. reflexivity.
        * change (join inner [t; b; c; d]) with (t ++ inner ++ b ++ inner ++ c ++ inner ++ d).
          assert (NE : map (join inner) (fours (e :: ts)) <> []).
          { destruct ts as [|x [|y [|z ts]]]; discriminate. }
          destruct (map (join inner) (fours (e :: ts))) as [|g gs] eqn:E; [contradiction|].
          change (join outer ((t ++ inner ++ b ++ inner ++ c ++ inner ++ d) :: g :: gs))
            with ((t ++ inner ++ b ++ inner ++ c ++ inner ++ d) ++ outer ++ join outer (g :: gs)).
          rewrite <- E. cbn [length] in L.
          rewrite (IH ts ltac:(lia) e (i + 1 + 1 + 1 + 1)) by (replace (i + 1 + 1 + 1 + 1) with (i + 1 * 4) by lia; rewrite Z.mod_add by lia; exact M).
          cbn [tail_from]. rewrite (sep_four (i + 1 + 1 + 1 + 1)) by (replace (i + 1 + 1 + 1 + 1) with (i + 1 * 4) by lia; rewrite Z.mod_add by lia; exact M).
          rewrite <- !app_assoc. reflexivity.
  Qed.
End Groups.

Lemma join_nil (ts : list (list ascii)) : join [] ts = concat ts.
Proof.
  induction ts as [|t ts IH]; [reflexivity|]. destruct ts as [|u ts]; [cbn; rewrite app_nil_r; reflexivity|].
  change (join [] (t :: u :: ts)) with (t ++ [] ++ join [] (u :: ts)). rewrite IH. reflexivity.
Qed.

Lemma plain_sep i inner outer : plain inner -> plain outer -> plain (sep_at inner outer i).
Proof. intros P Q. unfold sep_at. destruct (_ =? 0); assumption. Qed.
Lemma plain_tail inner outer ts : plain inner -> plain outer -> Forall plain ts -> forall i, plain (tail_from inner outer i ts).
Proof.
  intros P Q F. induction F as [|t ts H F IH]; intro i; [exact (fun q => q)|].
  cbn [tail_from]. apply plain_app; [|apply IH]. apply plain_app; [apply plain_sep; assumption|exact H].
Qed.

(** * SimdArray *)
Section Arr.
  Context {A : Type} (fmt : A -> text) (terminal : bool).
  Definition array_text (xs : list A) : text := lit "<" ++ join (lit " | ") (map (join (lit " ")) (fours (map fmt xs))) ++ lit ">".

  Lemma tail_loop (xs : list A) : forall i,
    concat (map2 (fun k x => sep_at (lit " ") (lit " | ") (i + Z.of_nat k) ++ fmt x) (seq 0 (length xs)) xs) =
    tail_from (lit " ") (lit " | ") i (map fmt xs).
  Proof.
    induction xs as [|x xs IH]; intro i; [reflexivity|].
    cbn [length seq map2 concat map tail_from]. rewrite Z.add_0_r. f_equal. rewrite <- IH. f_equal.
    rewrite <- seq_shift. clear IH. generalize (seq 0 (length xs)) as ks. generalize dependent i.
    induction xs as [|y xs IH2]; intros i ks; destruct ks as [|k ks]; try reflexivity.
    cbn [map map2]. f_equal; [|apply IH2]. replace (i + Z.of_nat (S k)) with (i + 1 + Z.of_nat k) by lia. reflexivity.
  Qed.
  Lemma nth_error_map2_seq {B C} (f : nat -> B -> C) (xs : list B) : forall s k, nth_error (map2 f (seq s (length xs)) xs) k = option_map (f (s + k)%nat) (nth_error xs k).
  Proof.
    induction xs as [|x xs IH]; intros s k; destruct k as [|k]; try reflexivity.
    - cbn. rewrite Nat.add_0_r. reflexivity.
    - cbn [length seq map2 nth_error]. rewrite IH. replace (S s + k)%nat with (s + S k)%nat by lia. reflexivity.
  Qed.
  Lemma length_map2_seq {B C} (f : nat -> B -> C) (xs : list B) s : length (map2 f (seq s (length xs)) xs) = length xs.
  Proof. revert s. induction xs as [|x xs IH]; intro s; [reflexivity|]. cbn. rewrite IH. reflexivity. Qed.

  Lemma put_array_text a xs at_ :
    (forall k, (k < S (length xs))%nat -> at_ (Z.of_nat k) = nth_error (a :: xs) k) ->
    put_array terminal fmt (S (length xs)) at_ =
    Some (color terminal green ++ lit "<" ++ join (lit " | ") (map (join (lit " ")) (fours (map fmt (a :: xs)))) ++ lit ">" ++ color terminal normal).
  Proof.
    intro H. unfold put_array.
    pose proof (H 0%nat ltac:(lia)) as H0. change (Z.of_nat 0) with 0 in H0. rewrite H0. cbn [nth_error obind].
    replace (S (length xs) - 1)%nat with (length xs) by lia.
    rewrite (for_each_ok _ _ 1 (map2 (fun k x => sep_at (lit " ") (lit " | ") (1 + Z.of_nat k) ++ fmt x) (seq 0 (length xs)) xs)).
    - cbn [obind]. rewrite tail_loop.
      change (map fmt (a :: xs)) with (fmt a :: map fmt xs).
      rewrite (fours_join (lit " ") (lit " | ") (map fmt xs) (fmt a) 0 eq_refl). rewrite <- !app_assoc. reflexivity.
    - apply length_map2_seq.
    - intros k Hk. replace (at_ (1 + Z.of_nat k)) with (at_ (Z.of_nat (S k))) by (f_equal; lia). rewrite H by lia. cbn [nth_error].
      rewrite nth_error_map2_seq. destruct (nth_error xs k); [|reflexivity]. cbn [obind option_map].
      unfold sep_at. rewrite Nat.add_0_l. destruct ((1 + Z.of_nat k) mod 4 =? 0); reflexivity.
  Qed.

  Lemma fours_plain xs : Forall plain (map fmt xs) -> plain (join (lit " | ") (map (join (lit " ")) (fours (map fmt xs)))).
  Proof.
    intro F. destruct xs as [|x xs]; [exact (fun q => q)|]. inversion F as [|? ? F1 F2]; subst.
    change (map fmt (x :: xs)) with (fmt x :: map fmt xs). rewrite (fours_join _ _ _ _ 0 eq_refl).
    apply plain_app; [exact F1|]. apply plain_tail; [apply plainb_ok; reflexivity|apply plainb_ok; reflexivity|exact F2].
  Qed.
  Lemma array_visible xs : Forall plain (map fmt xs) ->
    visible (color terminal green ++ lit "<" ++ join (lit " | ") (map (join (lit " ")) (fours (map fmt xs))) ++ lit ">" ++ color terminal normal)
    = array_text xs.
  Proof.
    intro F. pose proof (fours_plain xs F) as P.
    rewrite (closed_green terminal), vis_green. cbn [app].
    rewrite (visible_plain (lit "<")) by (apply plainb_ok; reflexivity).
    rewrite (visible_plain _ _ P). rewrite (visible_plain (lit ">")) by (apply plainb_ok; reflexivity).
    rewrite vis_normal, app_nil_r. reflexivity.
  Qed.
End Arr.

(** * Masks *)
Section Bits.
  Context (terminal : bool).
  Definition bits_text (m : list bool) : list ascii := join (lit " ") (map (@concat ascii) (fours (map bit_text m))).
  Definition bit_step (i : Z) (b : bool) : text :=
    (if (0 <? i) && (i mod 4 =? 0) then lit " " else []) ++
    (if b then color terminal yellow ++ lit "1" else color terminal blue ++ lit "0").
  Lemma bit_step_closed i b : closed (bit_step i b).
  Proof.
    unfold bit_step. apply closed_app.
    - destruct (_ && _); [apply closed_lit; reflexivity|exact closed_nil].
    - destruct b; apply closed_app; auto using closed_yellow, closed_blue; apply closed_lit; reflexivity.
  Qed.
  Lemma bit_step_visible i b : 0 < i -> visible (bit_step i b) = sep_at [] (lit " ") i ++ bit_text b.
  Proof.
    intro H. unfold bit_step, sep_at. replace (0 <? i) with true by (symmetry; apply Z.ltb_lt; lia).
    rewrite andb_true_l. destruct (i mod 4 =? 0), b, terminal; reflexivity.
  Qed.
  Lemma bit_step_visible0 b : visible (bit_step 0 b) = bit_text b.
  Proof. unfold bit_step. destruct b, terminal; reflexivity. Qed.

  Lemma bits_tail m : forall i, 0 < i ->
    visible (concat (map2 (fun k b => bit_step (i + Z.of_nat k) b) (seq 0 (length m)) m)) =
    tail_from [] (lit " ") i (map bit_text m).
  Proof.
    induction m as [|b m IH]; intros i Hi; [reflexivity|].
    cbn [length seq map2 concat map tail_from]. rewrite Z.add_0_r.
    rewrite (bit_step_closed i b). rewrite bit_step_visible by exact Hi. f_equal.
    rewrite <- IH by lia. f_equal. f_equal. rewrite <- seq_shift. generalize (seq 0 (length m)) as ks.
    clear IH Hi. revert i. induction m as [|c m IH2]; intros i ks; destruct ks as [|k ks]; try reflexivity.
    cbn [map map2]. f_equal; [|apply IH2]. replace (i + Z.of_nat (S k)) with (i + 1 + Z.of_nat k) by lia. reflexivity.
  Qed.

  Lemma put_bits_ok m at_ : (forall k, (k < length m)%nat -> at_ (Z.of_nat k) = nth_error m k) ->
    exists t, put_bits terminal (length m) at_ = Some t /\ closed t /\ visible t = bits_text m.
  Proof.
    intro H. exists (concat (map2 (fun k b => bit_step (0 + Z.of_nat k) b) (seq 0 (length m)) m)). split; [|split].
    - unfold put_bits. apply for_each_ok.
      + apply length_map2_seq.
      + intros k Hk. rewrite nth_error_map2_seq. replace (at_ (0 + Z.of_nat k)) with (at_ (Z.of_nat k)) by (f_equal; lia).
        rewrite H by exact Hk. destruct (nth_error m k); reflexivity.
    - apply closed_concat. rewrite Forall_forall. intros x I. apply In_nth_error in I. destruct I as [k E].
      rewrite nth_error_map2_seq in E. destruct (nth_error m k); [|discriminate E]. injection E as <-. apply bit_step_closed.
    - clear H. destruct m as [|b m]; [reflexivity|].
      cbn [length seq map2 concat]. change (0 + Z.of_nat 0) with 0.
      rewrite (bit_step_closed 0 b), bit_step_visible0. unfold bits_text.
      transitivity (join (lit " ") (map (join []) (fours (map bit_text (b :: m))))).
      2: { f_equal. apply map_ext. exact join_nil. }
      change (map bit_text (b :: m)) with (bit_text b :: map bit_text m).
      rewrite (fours_join [] (lit " ") (map bit_text m) (bit_text b) 0 eq_refl). f_equal.
      change (0 + 1) with 1. rewrite <- bits_tail by lia. f_equal. f_equal. rewrite <- seq_shift.
      generalize (seq 0 (length m)) as ks. induction m as [|c m IH2]; intro ks; destruct ks as [|k ks]; try reflexivity.
      cbn [map map2]. f_equal; [|apply IH2]. replace (0 + Z.of_nat (S k)) with (1 + Z.of_nat k) by lia. reflexivity.
  Qed.

  Lemma bits_of_app a b : bits_of (a ++ b) = bits_of a ++ bits_of b.
  Proof.
    induction a as [|c a IH]; [reflexivity|]. cbn [app bits_of]. rewrite IH.
    destruct (Ascii.eqb c "1"); [reflexivity|]. destruct (Ascii.eqb c "0"); reflexivity.
  Qed.
  Lemma bits_of_tail m : forall i, bits_of (tail_from [] (lit " ") i (map bit_text m)) = m.
  Proof.
    induction m as [|b m IH]; intro i; [reflexivity|]. cbn [map tail_from]. rewrite !bits_of_app, IH.
    unfold sep_at. destruct (_ =? 0), b; reflexivity.
  Qed.
  Lemma bits_of_text m : bits_of (bits_text m) = m.
  Proof.
    destruct m as [|b m]; [reflexivity|]. unfold bits_text.
    transitivity (bits_of (join (lit " ") (map (join []) (fours (map bit_text (b :: m)))))).
    { f_equal. f_equal. apply map_ext. intro. symmetry. apply join_nil. }
    change (map bit_text (b :: m)) with (bit_text b :: map bit_text m).
    rewrite (fours_join [] (lit " ") (map bit_text m) (bit_text b) 0 eq_refl).
    rewrite bits_of_app, bits_of_tail. destruct b; reflexivity.
  Qed.
End Bits.

(** * Numbers in the texts *)
Lemma words_tail inner outer zs : forall i t,
  inner <> [] -> outer <> [] -> Forall (fun c => number_char c = false) inner -> Forall (fun c => number_char c = false) outer -> starts_other t ->
  starts_other (tail_from inner outer i (map put_int zs) ++ t) /\
  words [] (tail_from inner outer i (map put_int zs) ++ t) = map put_int zs ++ words [] t.
Proof.
  induction zs as [|z zs IH]; intros i t NI NO FI FO S; [split; [exact S|reflexivity]|].
  destruct (IH (i + 1) t NI NO FI FO S) as [S1 W1].
  cbn [map tail_from]. rewrite <- !app_assoc.
  assert (Q : sep_at inner outer i <> [] /\ Forall (fun c => number_char c = false) (sep_at inner outer i)).
  { unfold sep_at. destruct (_ =? 0); split; assumption. }
  destruct Q as [Q1 Q2]. split.
  - destruct (sep_at inner outer i) as [|c s]; [contradiction|]. inversion Q2; subst. assumption.
  - rewrite words_sep by exact Q2. rewrite words_int by exact S1. rewrite W1. reflexivity.
Qed.
Lemma words_array a zs : words [] (array_text put_int (a :: zs)) = map put_int (a :: zs).
Proof.
  unfold array_text. change (map put_int (a :: zs)) with (put_int a :: map put_int zs).
  rewrite (fours_join _ _ _ _ 0 eq_refl). rewrite words_sep by (repeat constructor).
  destruct (words_tail (lit " ") (lit " | ") zs (0 + 1) (lit ">")) as [S W]; try discriminate; try (repeat constructor).
  rewrite <- app_assoc. rewrite words_int by exact S. rewrite W. cbn [words lit list_ascii_of_string]. cbn. rewrite app_nil_r. reflexivity.
Qed.
Lemma join_tail (sep : list ascii) t ts i : join sep (t :: ts) = t ++ tail_from sep sep i ts.
Proof.
  rewrite join_cons. f_equal. revert i. induction ts as [|u ts IH]; intro i; [reflexivity|].
  cbn [map concat tail_from]. rewrite (IH (i + 1)). unfold sep_at. destruct (_ =? 0); reflexivity.
Qed.
Lemma words_vector a zs t : words [] (vector_text put_int (a :: zs) ++ t) = map put_int (a :: zs) ++ words [] t.
Proof.
  unfold vector_text. change (map put_int (a :: zs)) with (put_int a :: map put_int zs).
  rewrite (join_tail _ _ _ 0). rewrite <- !app_assoc. rewrite words_sep by (repeat constructor).
  destruct (words_tail (lit ", ") (lit ", ") zs 0 (lit "]" ++ t)) as [S W]; try discriminate; try (repeat constructor).
  rewrite words_int by exact S. rewrite W. rewrite (words_sep (lit "]")) by (repeat constructor). reflexivity.
Qed.
Lemma words_vectors vs : forall t, Forall (fun v => v <> []) vs ->
  words [] (concat (map (vector_text put_int) vs) ++ t) = map put_int (concat vs) ++ words [] t.
Proof.
  induction vs as [|v vs IH]; intros t F; [reflexivity|]. inversion F as [|? ? N F2]; subst.
  cbn [map concat]. rewrite <- app_assoc, map_app, <- app_assoc.
  destruct v as [|a v]; [contradiction|]. rewrite words_vector. f_equal. apply IH, F2.
Qed.

(** * Objects *)
Lemma plain_ints zs : Forall plain (map put_int zs).
Proof. apply Forall_map. apply Forall_forall. intros z _. apply put_int_plain. Qed.

Lemma print_vector_ok {A} (fmt : A -> text) terminal xs : xs <> [] -> Forall plain (map fmt xs) ->
  exists t, print_vector terminal fmt xs = Some t /\ closed t /\ visible t = vector_text fmt xs.
Proof.
  intros N F. destruct xs as [|a xs]; [contradiction|]. unfold print_vector.
  cbn [length]. rewrite (put_vector_text fmt terminal a xs) by (intros; apply entry_at_nat).
  eexists. split; [reflexivity|]. apply vector_visible. exact F.
Qed.

Lemma get_nth {A} (zero : A) (t : sa A) k : (k < size t)%nat -> length (to_list t) = size t -> get zero t (Z.of_nat k) = nth_error (to_list t) k.
Proof.
  intros H L. unfold get, isize. replace (0 <=? Z.of_nat k) with true by (symmetry; apply Z.leb_le; lia).
  replace (Z.of_nat k <? Z.of_nat (size t)) with true by (symmetry; apply Z.ltb_lt; lia).
  cbn [andb]. unfold znth. rewrite L. replace (0 <=? Z.of_nat k) with true by (symmetry; apply Z.leb_le; lia).
  replace (Z.of_nat k <? Z.of_nat (size t)) with true by (symmetry; apply Z.ltb_lt; lia). cbn [andb].
  rewrite Nat2Z.id. symmetry. apply nth_error_nth'. lia.
Qed.
Lemma length_size {A} (t : sa A) : length (to_list t) = size t.
Proof. induction t as [xs|l IHl r IHr]; [reflexivity|]. cbn [to_list size]. rewrite app_length. congruence. Qed.

Lemma put_array_ext {A} (fmt : A -> text) terminal xs n at_ : n = length xs -> xs <> [] ->
  (forall k, (k < n)%nat -> at_ (Z.of_nat k) = nth_error xs k) -> Forall plain (map fmt xs) ->
  exists t, put_array terminal fmt n at_ = Some t /\ visible t = array_text fmt xs.
Proof.
  intros -> N H F. destruct xs as [|a xs]; [contradiction|]. cbn [length] in *.
  rewrite (put_array_text fmt terminal a xs at_ H). eexists. split; [reflexivity|]. apply array_visible. exact F.
Qed.

(** * Memory *)
Lemma vectors32_ok (vec : Z -> option text) ts : forall i, 0 <= i -> i + Z.of_nat (length ts) < 2 ^ 32 ->
  (forall k, (k < length ts)%nat -> vec (i + Z.of_nat k) = nth_error ts k) ->
  put_vectors32 (length ts) i (i + Z.of_nat (length ts)) vec = Some (concat ts).
Proof.
  induction ts as [|t ts IH]; intros i Hi L H; cbn [put_vectors32 length].
  - replace (i + Z.of_nat 0) with i by lia. rewrite Z.ltb_irrefl. reflexivity.
  - cbn [length] in *. replace (i <? i + Z.of_nat (S (length ts))) with true by (symmetry; apply Z.ltb_lt; lia).
    pose proof (H 0%nat ltac:(lia)) as H0. rewrite Z.add_0_r in H0. rewrite H0. cbn [nth_error obind].
    rewrite Z.mod_small by lia.
    replace (i + Z.of_nat (S (length ts))) with (i + 1 + Z.of_nat (length ts)) by lia.
    rewrite IH.
    + reflexivity.
    + lia.
    + lia.
    + intros k Hk. replace (i + 1 + Z.of_nat k) with (i + Z.of_nat (S k)) by lia. rewrite H by lia. reflexivity.
Qed.
Lemma vectors32_endless vec steps : forall i count, 0 <= i < 2 ^ 32 -> 2 ^ 32 <= count ->
  put_vectors32 steps i count vec = None.
Proof.
  induction steps as [|steps IH]; intros i count Hi Hc; cbn [put_vectors32];
    (replace (i <? count) with true by (symmetry; apply Z.ltb_lt; lia)); [reflexivity|].
  destruct (vec i); [|reflexivity]. cbn [obind]. rewrite IH; [reflexivity| |exact Hc].
  apply Z.mod_pos_bound. reflexivity.
Qed.

Definition cell_rows {A} (width : nat) (vs : list (list A)) : Prop := Forall (fun v => length v = width) vs.
Lemma load_parts {A} (m : memory A) width vs : cell_rows width vs -> forall base,
  mem_load m base (length (concat vs)) = Some (concat vs) ->
  forall k, (k < length vs)%nat -> mem_load m (base + Z.of_nat k * Z.of_nat width) width = nth_error vs k.
Proof.
  assert (APP : forall p a q, mem_load m a (p + q) = (x <-- mem_load m a p; y <-- mem_load m (a + Z.of_nat p) q; Some (x ++ y))).
  { induction p as [|p IH]; intros a q.
    - cbn [Nat.add mem_load obind]. rewrite Z.add_0_r. destruct (mem_load m a q); reflexivity.
    - cbn [Nat.add mem_load]. destruct (m a); [|reflexivity]. rewrite IH. replace (a + 1 + Z.of_nat p) with (a + Z.of_nat (S p)) by lia.
      destruct (mem_load m (a + 1) p); [|reflexivity]. cbn [option_map obind]. destruct (mem_load m (a + Z.of_nat (S p)) q); reflexivity. }
  assert (LEN : forall n a xs, mem_load m a n = Some xs -> length xs = n).
  { induction n as [|n IH]; intros a xs H; cbn in H; [injection H as <-; reflexivity|].
    destruct (m a); [|discriminate H]. destruct (mem_load m (a + 1) n) eqn:E; [|discriminate H]. injection H as <-. cbn. f_equal. eapply IH, E. }
  induction 1 as [|v vs Hv F IH]; intros base H k Hk; [cbn in Hk; lia|].
  cbn [concat] in H. rewrite app_length, APP, Hv in H.
  destruct (mem_load m base width) as [x|] eqn:E1; [|discriminate H]. cbn [obind] in H.
  destruct (mem_load m (base + Z.of_nat width) (length (concat vs))) as [y|] eqn:E2; [|discriminate H]. cbn [obind] in H.
  injection H as H. apply LEN in E1 as L1.
  assert (X : x = v /\ y = concat vs).
  { revert H. assert (LL : length x = length v) by congruence. revert LL. clear. revert v.
    induction x as [|a x IH]; intros v L H; destruct v as [|b v]; try discriminate L; [split; [reflexivity|exact H]|].
    injection H as -> H. injection L as L. destruct (IH v L H) as [-> ->]. split; reflexivity. }
  destruct X as [-> ->]. destruct k as [|k].
  - rewrite Z.mul_0_l, Z.add_0_r. exact E1.
  - cbn [nth_error]. rewrite <- (IH (base + Z.of_nat width)) by (try exact E2; cbn in Hk; lia). f_equal. lia.
Qed.
