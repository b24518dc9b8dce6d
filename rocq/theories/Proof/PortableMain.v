(** programs give the same results in every build (proofs). *)
From Coq Require Import ZArith List Bool Lia.
From Verif.Spec Require Import Seq MaskSpec VectorSpec PortableSpec.
From Verif.Model Require Import Word SseBuild SimdArray Mem MaskedDiv Program Portable.
Import ListNotations.
Local Open Scope Z_scope.
From Verif.Proof Require Import SimdArrayOpsP SeqP PortableP PortableOpsP.

Lemma start_rel b e n H m (h : H) : is_integer e = true -> (1 <= n)%nat ->
  rel_state b e n (start (b_zero b e n) (b_none b e n) m h) (start (repeat (w0 _) n) (repeat false n) m h).
Proof.
  intros I Hn. assert (G : forall A (c : A), tab n (fun _ => c) = repeat c n). { intros A c. unfold tab. generalize 0%nat. induction n as [|k IH]; intros z; [reflexivity|]. cbn. destruct k; [reflexivity|]. f_equal. apply IH. lia. }
  refine (conj eq_refl (conj (fun _ => eq_refl) (conj _ _))); intros i; cbn [start vr mr]; rewrite <- G; now apply generate_sim.
Qed.

Lemma C76_portable_partial_main :
  forall b e n H (p : prog (elt e) H) fuel m h s, is_integer e = true -> (1 <= n)%nat ->
    run (reference e n) fuel p (start (repeat (w0 _) n) (repeat false n) m h) = Some s ->
    exists s', run (implementation b e n) fuel p (start (b_zero b e n) (b_none b e n) m h) = Some s' /\
      hs s' = hs s /\ (forall a, mm s' a = mm s a) /\
      (forall i, to_list (vr s' i) = vr s i) /\ (forall i, to_list (mr s' i) = mr s i).
Proof.
  intros b e n H p fuel m h s I Hn D. destruct (run_sim b e n I Hn fuel p _ _ s (start_rel b e n H m h I Hn) D) as (s' & E & R1 & R2 & R3 & R4).
  exists s'. split; [exact E|]. split; [exact R1|]. split; [exact R2|]. split; intros i; [apply R3|apply R4].
Qed.

Lemma C76_builds_agree_partial_main :
  forall b b' e n H (p : prog (elt e) H) fuel m h, is_integer e = true -> (1 <= n)%nat ->
    run (reference e n) fuel p (start (repeat (w0 _) n) (repeat false n) m h) <> None ->
    exists s s', run (implementation b e n) fuel p (start (b_zero b e n) (b_none b e n) m h) = Some s /\
      run (implementation b' e n) fuel p (start (b_zero b' e n) (b_none b' e n) m h) = Some s' /\
      hs s = hs s' /\ (forall a, mm s a = mm s' a) /\
      (forall i, to_list (vr s i) = to_list (vr s' i)) /\ (forall i, to_list (mr s i) = to_list (mr s' i)).
Proof.
  intros b b' e n H p fuel m h I Hn D. destruct (run (reference e n) fuel p (start (repeat (w0 _) n) (repeat false n) m h)) as [s|] eqn:E; [|contradiction].
  destruct (C76_portable_partial_main b e n H p fuel m h s I Hn E) as (s1 & A0 & A1 & A2 & A3 & A4). destruct (C76_portable_partial_main b' e n H p fuel m h s I Hn E) as (s2 & B0 & B1 & B2 & B3 & B4).
  exists s1, s2. repeat split; auto; intros; congruence.
Qed.

Lemma generate_wf b e n A (f : Z -> A) : is_integer e = true -> (1 <= n)%nat -> wf (b_native b e) n (generate (b_native b e) n f).
Proof. intros I Hn. now apply generate_sim. Qed.

Lemma C14_empty_mask_main :
  forall b e n t k, is_integer e = true -> (1 <= n)%nat -> wf (b_native b e) n t -> wf (b_native b e) n k -> (forall c, In c (to_list k) -> c = false) ->
    o_reduce_mask (implementation b e n) RSum t k = Some (mkw _ 0) /\ o_reduce_mask (implementation b e n) RProduct t k = Some (mkw _ 1).
Proof.
  intros b e n t k I Hn Wt Wk N. pose proof (select_none _ (to_list t) N) as S. assert (N0 : c_reduce e RSum [] = Some (mkw _ 0)) by (destruct e; try discriminate I; reflexivity). assert (N1 : c_reduce e RProduct [] = Some (mkw _ 1)) by (destruct e; try discriminate I; reflexivity).
  split; apply (reduce_mask_sim b e n I Hn _ t k _ _ _ (conj Wt eq_refl) (conj Wk eq_refl)); cbn [reference o_reduce_mask]; rewrite S; assumption.
Qed.

Lemma C76_short_division_refuted_main :
  exists (b b' : build) (p : prog (elt Short) Z) (s s' : state (elt Short) Z (sa (elt Short)) (sa bool)), let m : memory (elt Short) := fun _ => None in
    run (implementation b Short 8) 10 p (start (b_zero b Short 8) (b_none b Short 8) m 0) = Some s /\ hs s = -32768 /\
    run (implementation b' Short 8) 10 p (start (b_zero b' Short 8) (b_none b' Short 8) m 0) = Some s' /\ hs s' = 32767.
Proof.
  pose (b := {| b_impl := DScalar; b_ssse3 := false; b_ptest := false; b_popcnt := false; b_constant := false |}).
  pose (b' := {| b_impl := DSse true; b_ssse3 := true; b_ptest := true; b_popcnt := true; b_constant := true |}).
  pose (p := PSeq (PDo (IGenerate 0 (fun (_ : Z) _ => mkw 2 (-32768)))) (PSeq (PDo (IGenerate 1 (fun _ _ => mkw 2 (-1)))) (PSeq (PDo (IArith ODiv 2 0 1)) (PDo (IGet 2 (fun _ => 3) (fun (a : elt Short) _ => sval a)))))).
  assert (A : option_map hs (run (implementation b Short 8) 10 p (start (b_zero b Short 8) (b_none b Short 8) (fun _ => None) 0)) = Some (-32768)) by (vm_compute; reflexivity).
  assert (B : option_map hs (run (implementation b' Short 8) 10 p (start (b_zero b' Short 8) (b_none b' Short 8) (fun _ => None) 0)) = Some 32767) by (vm_compute; reflexivity).
  exists b, b', p. destruct (run (implementation b Short 8) 10 p (start (b_zero b Short 8) (b_none b Short 8) (fun _ => None) 0)) as [s|] eqn:E; [|discriminate A].
  destruct (run (implementation b' Short 8) 10 p (start (b_zero b' Short 8) (b_none b' Short 8) (fun _ => None) 0)) as [s'|] eqn:E'; [|discriminate B].
  injection A as A. injection B as B. exists s, s'. exact (conj E (conj A (conj E' B))).
Qed.
