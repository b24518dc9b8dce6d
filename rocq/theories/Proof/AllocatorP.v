(** Proofs about Model/Allocator. *)
From Coq Require Import ZArith List Bool Lia.
From Verif.Spec Require Import AllocatorSpec.
From Verif.Model Require Import MemoryClass Allocator.
Import ListNotations.
Local Open Scope Z_scope.

(** ** lists *)
Lemma without_0 {A} (x : A) l : without 0 (x :: l) = l.
Proof. reflexivity. Qed.
Lemma without_S {A} i (x : A) l : without (S i) (x :: l) = x :: without i l.
Proof. reflexivity. Qed.
Lemma without_in {A} (x : A) : forall l i, In x (without i l) -> In x l.
Proof. intros l i H. unfold without in H. apply in_app_or in H. destruct H as [H|H]; [|pose proof (firstn_skipn (S i) l) as E; rewrite <- E; apply in_or_app; auto]. pose proof (firstn_skipn i l) as E. rewrite <- E. apply in_or_app. auto. Qed.

(** ** pointers in memory *)
Lemma load_store m a p : 0 <= p < 2 ^ 64 -> load_pointer (store_pointer m a p) a = p.
Proof.
  intros H. unfold load_pointer, store_pointer.
  repeat match goal with |- context[(a <=? ?x) && (?x <? a + 8)] => replace ((a <=? x) && (x <? a + 8)) with true by (symmetry; apply andb_true_intro; split; [apply Z.leb_le|apply Z.ltb_lt]; lia) end.
  replace (a - a) with 0 by lia. replace (a + 1 - a) with 1 by lia. replace (a + 2 - a) with 2 by lia. replace (a + 3 - a) with 3 by lia.
  replace (a + 4 - a) with 4 by lia. replace (a + 5 - a) with 5 by lia. replace (a + 6 - a) with 6 by lia. replace (a + 7 - a) with 7 by lia.
  change (256 ^ 0) with 1. change (256 ^ 1) with 256.
  assert (S : forall k, 0 <= k -> p / 256 ^ (k + 1) = p / 256 ^ k / 256) by (intros k K; rewrite Z.pow_add_r, <- Z.div_div by lia; reflexivity).
  set (q0 := p). replace (q0 / 1) with q0 by (rewrite Z.div_1_r; reflexivity).
  pose proof (S 1 ltac:(lia)) as S1. pose proof (S 2 ltac:(lia)) as S2. pose proof (S 3 ltac:(lia)) as S3. pose proof (S 4 ltac:(lia)) as S4. pose proof (S 5 ltac:(lia)) as S5. pose proof (S 6 ltac:(lia)) as S6.
  pose proof (S 7 ltac:(lia)) as S7. change (1 + 1) with 2 in *. change (2 + 1) with 3 in *. change (3 + 1) with 4 in *. change (4 + 1) with 5 in *. change (5 + 1) with 6 in *. change (6 + 1) with 7 in *. change (7 + 1) with 8 in *.
  change (256 ^ 1) with 256 in S1. fold q0 in S1, S2, S3, S4, S5, S6, S7. assert (Z8 : q0 / 256 ^ 8 = 0) by (apply Z.div_small; unfold q0; change (256 ^ 8) with (2 ^ 64); lia).
  rewrite Z8 in S7. rewrite S6 in S7 |- *. rewrite S5 in S7 |- *. rewrite S4 in S7 |- *. rewrite S3 in S7 |- *. rewrite S2 in S7 |- *. rewrite S1 in S7 |- *.
  set (q1 := q0 / 256) in *. set (q2 := q1 / 256) in *. set (q3 := q2 / 256) in *. set (q4 := q3 / 256) in *. set (q5 := q4 / 256) in *. set (q6 := q5 / 256) in *. set (q7 := q6 / 256) in *.
  pose proof (Z.div_mod q0 256 ltac:(lia)) as D0. pose proof (Z.div_mod q1 256 ltac:(lia)) as D1. pose proof (Z.div_mod q2 256 ltac:(lia)) as D2. pose proof (Z.div_mod q3 256 ltac:(lia)) as D3.
  pose proof (Z.div_mod q4 256 ltac:(lia)) as D4. pose proof (Z.div_mod q5 256 ltac:(lia)) as D5. pose proof (Z.div_mod q6 256 ltac:(lia)) as D6. pose proof (Z.div_mod q7 256 ltac:(lia)) as D7.
  fold q1 in D0. fold q2 in D1. fold q3 in D2. fold q4 in D3. fold q5 in D4. fold q6 in D5. fold q7 in D6. rewrite <- S7 in D7. lia.
Qed.
Lemma load_ext m m' a : (forall x, a <= x < a + 8 -> m x = m' x) -> load_pointer m a = load_pointer m' a.
Proof. intros H. unfold load_pointer. rewrite !H by lia. reflexivity. Qed.
Lemma store_other m a p x : ~ (a <= x < a + 8) -> store_pointer m a p x = m x.
Proof. intros H. unfold store_pointer. destruct (Z.leb_spec a x), (Z.ltb_spec x (a + 8)); auto. lia. Qed.

(** ** the adjusted address *)
Lemma pow2_divide a b : power_of_two a -> power_of_two b -> a <= b -> (a | b).
Proof.
  intros (i & Hi & ->) (j & Hj & ->) H. apply Z.pow_le_mono_r_iff in H; try lia. exists (2 ^ (j - i)). rewrite <- Z.pow_add_r by lia. f_equal. lia.
Qed.
Lemma pow2_pos a : power_of_two a -> 0 < a.
Proof. intros (i & Hi & ->). apply Z.pow_pos_nonneg; lia. Qed.

Section Alloc.
  Context (natural : Z) (NP : power_of_two natural) (N8 : 8 <= natural).
  Section T.
    Context (A : allocator) (HA : a_type A).
    Let NN := pow2_pos _ NP.
    Lemma alignment_pow2 : power_of_two (alignment A).
    Proof. destruct HA as (_ & P & _ & Q). unfold alignment. destruct (_ <? _); auto. Qed.
    Lemma align_divides : (alignof_t A | alignment A) /\ (simd_alignment A | alignment A).
    Proof.
      destruct HA as (_ & P & _ & Q). unfold alignment. destruct (Z.ltb_spec (simd_alignment A) (alignof_t A)).
      - split; [apply Z.divide_refl|]. apply pow2_divide; auto. lia.
      - split; [|apply Z.divide_refl]. apply pow2_divide; auto.
    Qed.
    Lemma max_size_iff n : (max_size A <? n) = false <-> n * sizeof_t A < 2 ^ 64.
    Proof.
      destruct HA as (P & _). unfold max_size. rewrite Z.ltb_ge. pose proof (Z.div_mod (2 ^ 64 - 1) (sizeof_t A) ltac:(lia)) as D. pose proof (Z.mod_pos_bound (2 ^ 64 - 1) _ P) as B.
      split; intros H; nia.
    Qed.
    Lemma extra_cases : extra_bytes natural A = alignment A /\ natural < alignment A \/ extra_bytes natural A = 0 /\ alignment A <= natural.
    Proof. unfold extra_bytes. destruct (Z.ltb_spec natural (alignment A)); auto. Qed.
    Lemma request_eq n : 0 <= n -> n * sizeof_t A + alignment A < 2 ^ 64 -> request natural A n = n * sizeof_t A + extra_bytes natural A.
    Proof.
      intros Hn H. pose proof (pow2_pos _ alignment_pow2). destruct HA as (P & _). unfold request, size_t. pose proof extra_cases.
      assert (0 <= n * sizeof_t A) by (apply Z.mul_nonneg_nonneg; lia). rewrite (Z.mod_small (n * sizeof_t A)) by lia. apply Z.mod_small. lia.
    Qed.
    (** the address lies behind room for a pointer *)
    Lemma adjusted_spec pp : natural < alignment A -> 0 < pp -> pp + alignment A < 2 ^ 64 -> pp mod natural = 0 ->
      (alignment A | adjusted natural A pp) /\ pp + 8 <= adjusted natural A pp <= pp + alignment A.
    Proof.
      intros L P W M. pose proof extra_cases as EC. assert (E : extra_bytes natural A = alignment A) by lia. unfold adjusted. rewrite E. unfold size_t. rewrite Z.mod_small by lia.
      destruct alignment_pow2 as (k & Hk & K). unfold alignment_mask. replace (alignment A - 1) with (Z.ones k) by (rewrite Z.ones_equiv, K; lia).
      rewrite Z.land_ones by lia. rewrite <- K. set (a := alignment A) in *. set (p := pp + a) in *.
      pose proof (Z.div_mod p a ltac:(lia)) as D. pose proof (Z.mod_pos_bound p a ltac:(lia)) as B.
      assert (Q : p - p mod a = a * (p / a)) by lia. split; [exists (p / a); lia|].
      assert (DN : (natural | p - p mod a - pp)).
      { apply Z.divide_sub_r; [|apply Z.mod_divide; [lia|auto]]. rewrite Q. apply Z.divide_mul_l. apply pow2_divide; auto; [|lia]. exists k. auto. }
      destruct DN as (c & C). unfold p in *. assert (1 <= c) by nia. nia.
    Qed.
  End T.

  (** ** the invariant *)
  (** an object and the storage it was made from *)
  Definition linked (m : heap) (o : object) (b : block) : Prop :=
    a_type (of_type o) /\ 0 <= count o /\ fst b = answered o /\ 0 <= snd b /\
    (alignment (of_type o) | address o) /\ address o + bytes o <= fst b + snd b /\
    (if 0 <? extra_bytes natural (of_type o) then fst b + 8 <= address o /\ load_pointer m (address o - 8) = fst b else address o = fst b).
  Definition separate (b b' : block) : Prop := apart (fst b) (Z.max 1 (snd b)) (fst b') (Z.max 1 (snd b')).
  Definition invariant (s : state) : Prop :=
    Forall2 (linked (contents s)) (objects s) (blocks s) /\ ForallOrdPairs separate (blocks s).

  Lemma bytes_nonneg m o b : linked m o b -> 0 <= bytes o.
  Proof. intros ((P & _) & C & _). unfold bytes. apply Z.mul_nonneg_nonneg; [exact C|apply Z.lt_le_incl; exact P]. Qed.
  Lemma linked_in m o b : linked m o b -> in_block (address o) (bytes o) b.
  Proof. intros (_ & _ & _ & _ & _ & U & L). unfold in_block. destruct (0 <? _); lia. Qed.
  Lemma linked_deallocate m o b : linked m o b -> deallocate natural (of_type o) (address o) m = fst b.
  Proof. intros (_ & _ & _ & _ & _ & _ & L). unfold deallocate. destruct (0 <? _); lia. Qed.
  Lemma linked_ext m m' o b : linked m o b -> (forall x, fst b <= x < address o -> m x = m' x) -> linked m' o b.
  Proof.
    intros (A1 & A2 & A3 & A4 & A5 & A6 & L) H. unfold linked. repeat (split; [assumption|]). destruct (0 <? _); auto. destruct L as (L1 & L2). split; auto.
    rewrite <- (load_ext m m'); auto. intros x X. apply H. lia.
  Qed.
  Lemma delete_without : forall os bs m i o, Forall2 (linked m) os bs -> ForallOrdPairs separate bs -> nth_error os i = Some o ->
    exists b, nth_error bs i = Some b /\ linked m o b /\ delete (fst b) bs = Some (without i bs).
  Proof.
    intros os bs m i o F. revert i. induction F as [|o' b' os bs L F IH]; intros i D E; [destruct i; discriminate E|].
    inversion D as [|? ? D1 D2]; subst. destruct i as [|i].
    - injection E as <-. exists b'. split; [reflexivity|]. split; auto. cbn [delete]. rewrite Z.eqb_refl. reflexivity.
    - cbn [nth_error] in E. destruct (IH i D2 E) as (b & B & LB & DB). exists b. split; [exact B|]. split; auto. cbn [delete].
      assert (S : separate b' b) by (rewrite Forall_forall in D1; apply D1; apply nth_error_In with i; auto).
      destruct (Z.eqb_spec (fst b') (fst b)) as [Q|Q]; [unfold separate, apart in S; lia|]. rewrite DB. reflexivity.
  Qed.
  Lemma Forall2_without {X Y} (R : X -> Y -> Prop) : forall xs ys i, Forall2 R xs ys -> Forall2 R (without i xs) (without i ys).
  Proof. intros xs ys i F. revert i. induction F; intros [|i]; try constructor; auto; cbn; auto. exact (IHF i). Qed.
  Lemma pairs_without {X} (R : X -> X -> Prop) : forall xs i, ForallOrdPairs R xs -> ForallOrdPairs R (without i xs).
  Proof.
    intros xs i F. revert i. induction F as [|x xs H F IH]; intros [|i]; try constructor; auto.
    - apply Forall_forall. intros y Y. rewrite Forall_forall in H. apply H. apply (without_in y xs i Y).
    - exact (IH i).
  Qed.

  Lemma step_defined s e : invariant s -> allowed natural s e -> exists s', step natural s e = Some s'.
  Proof.
    intros (L & D) AL. destruct e as [A n answer|i|a v]; cbn [step allowed] in *.
    - destruct (allocate natural A n answer (contents s)) as [[m p]|], answer; eauto.
    - destruct (nth_error (objects s) i) as [o|] eqn:E; [|apply nth_error_None in E; lia].
      destruct (delete_without _ _ _ i o L D E) as (b & _ & LB & DB). rewrite (linked_deallocate _ _ _ LB), DB. eauto.
    - eauto.
  Qed.
  (** a byte of an object, or of no block, is not between the start of a block and the object made from it *)
  Lemma write_linked m v s a : Forall2 (linked m) (objects s) (blocks s) -> ForallOrdPairs separate (blocks s) ->
    Exists (fun o => address o <= a < address o + bytes o) (objects s) \/ Forall (fun b => apart a 1 (fst b) (Z.max 1 (snd b))) (blocks s) ->
    Forall2 (linked (fun x => if x =? a then v else m x)) (objects s) (blocks s).
  Proof.
    intros L D H. destruct s as [bs os m0]. cbn [objects blocks] in *.
    assert (G : Forall2 (fun o b => fst b <= a < address o -> False) os bs).
    { destruct H as [H|H].
      - revert D H. induction L as [|o b os bs LO L IH]; intros D H; [constructor|]. inversion D as [|? ? D1 D2]; subst. rewrite Forall_forall in D1.
        assert (K : forall o' b', In b' bs -> linked m o' b' -> address o' <= a < address o' + bytes o' -> fst b' <= a < fst b' + Z.max 1 (snd b') /\ separate b b').
        { intros o' b' I' L' R. pose proof (linked_in _ _ _ L') as (U1 & U2). split; [lia|auto]. }
        inversion H as [? ? H1|? ? H2]; subst.
        + constructor; [lia|]. pose proof (linked_in _ _ _ LO) as (U1 & U2).
          assert (G : forall b', In b' bs -> ~ (fst b' <= a < fst b' + Z.max 1 (snd b'))) by (intros b' I' R; specialize (D1 b' I'); unfold separate, apart in D1; lia).
          clear IH H D D2 D1 K. induction L as [|o' b' os bs L' L IH]; constructor.
          * intros R. apply (G b' (or_introl eq_refl)). pose proof (linked_in _ _ _ L') as (V1 & V2). pose proof (bytes_nonneg _ _ _ L'). lia.
          * apply IH. intros b'' I''. apply G. right. auto.
        + constructor; [|apply IH; auto]. intros R.
          assert (X : exists o' b', In b' bs /\ linked m o' b' /\ address o' <= a < address o' + bytes o').
          { clear - L H2. induction L as [|o' b' os bs L' L IH]; inversion H2; subst; [exists o', b'; split; [now left|]; split; assumption|].
            destruct (IH ltac:(assumption)) as (o'' & b'' & I & J). exists o'', b''. split; [now right|auto]. }
          destruct X as (o' & b' & I' & L' & R'). destruct (K o' b' I' L' R') as (K1 & K2). unfold separate, apart in K2.
          pose proof (linked_in _ _ _ LO) as (V1 & V2). pose proof (bytes_nonneg _ _ _ LO). lia.
      - clear D. revert H. induction L as [|o b os bs LO L IH]; intros H; [constructor|]. inversion H as [|? ? H1 H2]; subst. constructor; auto.
        intros R. pose proof (linked_in _ _ _ LO) as (V1 & V2). pose proof (bytes_nonneg _ _ _ LO). unfold apart in H1. lia. }
    clear D H. revert G. induction L as [|o b os bs LO L IH]; intros G; [constructor|]. inversion G; subst. constructor; auto.
    apply (linked_ext m); auto. intros x X. destruct (Z.eqb_spec x a) as [->|]; auto. exfalso. auto.
  Qed.

  Lemma allocate_linked s A n pp m p : invariant s -> a_type A -> 0 <= n < 2 ^ 64 -> (n * sizeof_t A < 2 ^ 64 -> n * sizeof_t A + alignment A < 2 ^ 64) ->
    new_block natural (blocks s) (request natural A n) pp -> allocate natural A n (Some pp) (contents s) = Some (m, p) ->
    linked m (mkobject A p n pp) (pp, request natural A n) /\ (forall b x, In b (blocks s) -> fst b <= x < fst b + Z.max 1 (snd b) -> m x = contents s x).
  Proof.
    intros (L & D) HA Hn HM (P1 & P2 & P3 & P4) E. unfold allocate in E. destruct (max_size A <? n) eqn:MS; [discriminate E|]. apply (max_size_iff A HA) in MS.
    specialize (HM MS). pose proof (request_eq A HA n ltac:(lia) HM) as RE. destruct HA as (SZ & HA'). pose proof (conj SZ HA' : a_type A) as HA.
    pose proof (pow2_pos _ (alignment_pow2 A HA)) as AP. assert (NB : 0 <= n * sizeof_t A) by nia.
    destruct (extra_cases A) as [(X & Y)|(X & Y)]; rewrite X in E.
    - replace (0 <? alignment A) with true in E by (symmetry; apply Z.ltb_lt; lia). injection E as <- <-.
      destruct (adjusted_spec A HA pp Y P1 ltac:(lia) P3) as (B1 & B2). split.
      + unfold linked. cbn [of_type count answered address fst snd]. repeat (split; [first [assumption|lia|reflexivity]|]). split; [unfold bytes; cbn [of_type count]; lia|].
        rewrite X. replace (0 <? alignment A) with true by (symmetry; apply Z.ltb_lt; lia). split; [lia|]. apply load_store. lia.
      + intros b x I R. apply store_other. intros R'. rewrite Forall_forall in P4. specialize (P4 b I). unfold apart in P4. lia.
    - cbn in E. injection E as <- <-. split; [|auto]. unfold linked. cbn [of_type count answered address fst snd]. rewrite X. cbn [Z.ltb Z.compare].
      repeat (split; [first [assumption|lia|reflexivity]|]). split.
      + apply Z.divide_trans with natural; [apply pow2_divide; auto; apply (alignment_pow2 A HA)|]. apply Z.mod_divide; lia.
      + split; [unfold bytes; cbn [of_type count]; lia|reflexivity].
  Qed.
  Lemma linked_keep m m' os bs : Forall2 (linked m) os bs -> (forall b x, In b bs -> fst b <= x < fst b + Z.max 1 (snd b) -> m' x = m x) -> Forall2 (linked m') os bs.
  Proof.
    induction 1 as [|o b os bs L F IH]; intros H; constructor.
    - apply (linked_ext m); auto. intros x X. symmetry. apply (H b); [now left|]. pose proof (linked_in _ _ _ L) as (V1 & V2). pose proof (bytes_nonneg _ _ _ L). lia.
    - apply IH. intros b' x I. apply H. now right.
  Qed.
  Lemma step_invariant s e s' : invariant s -> allowed natural s e -> moderate e -> step natural s e = Some s' -> invariant s'.
  Proof.
    intros INV AL MO E. pose proof INV as (L & D). destruct e as [A n answer|i|a v]; cbn [step allowed moderate] in *.
    - destruct AL as (HA & Hn & NB). destruct (allocate natural A n answer (contents s)) as [[m p]|] eqn:EA; [|destruct answer; injection E as <-; auto].
      destruct answer as [pp|]; [|injection E as <-; auto]. injection E as <-.
      destruct (allocate_linked s A n pp m p INV HA Hn MO NB EA) as (LK & KEEP). split; cbn [objects blocks contents].
      + constructor; auto. apply (linked_keep (contents s)); auto.
      + constructor; auto. destruct NB as (_ & _ & _ & F). exact F.
    - destruct (nth_error (objects s) i) as [o|] eqn:N; [|discriminate E]. destruct (delete_without _ _ _ i o L D N) as (b & _ & LB & DB).
      rewrite (linked_deallocate _ _ _ LB), DB in E. injection E as <-. split; cbn [objects blocks contents]; [apply Forall2_without; auto|apply pairs_without; auto].
    - injection E as <-. split; cbn [objects blocks contents]; auto. apply write_linked; auto. apply AL.
  Qed.
  Lemma reachable_invariant s : reachable natural s -> invariant s.
  Proof. induction 1 as [m|s e s' R IH AL MO E]; [split; constructor|]. apply (step_invariant s e); auto. Qed.
End Alloc.
