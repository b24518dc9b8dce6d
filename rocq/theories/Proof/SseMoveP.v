(** The SSE data movement functions, byte by byte. *)
From Coq Require Import ZArith Znumtheory List Bool Lia.
From Verif.Spec Require Import Seq NativeSpec.
From Verif.Model Require Import SimdArray SseReg SseMove ScalarVec.
From Verif.Proof Require Import SeqP ScalarVecP.
Import ListNotations.
Local Open Scope Z_scope.

(** A vector as its lanes: [16 / w] lists of [w] bytes. *)
Definition lanes_ok {B} (w : nat) (xs : list (list B)) : Prop :=
  length xs = (16 / w)%nat /\ Forall (fun x => length x = w) xs.

Ltac explode_list x :=
  lazymatch goal with
  | H : length x = 0%nat |- _ => destruct x; [clear H|discriminate H]
  | H : length x = S _ |- _ =>
      let b := fresh "b" in let t := fresh "t" in
      destruct x as [|b t]; [discriminate H|]; cbn [length] in H; apply eq_add_S in H; explode_list t
  end.
Ltac explode_forall xs :=
  lazymatch goal with
  | HL : length xs = 0%nat |- _ => destruct xs; [clear HL|discriminate HL]
  | HL : length xs = S _, HF : Forall _ xs |- _ =>
      let c := fresh "c" in let t := fresh "t" in let F := fresh "F" in let F' := fresh "F" in
      destruct xs as [|c t]; [discriminate HL|]; cbn [length] in HL; apply eq_add_S in HL;
      apply Forall_cons_iff in HF; destruct HF as [F HF]; explode_forall t; explode_list c
  end.
Ltac explode xs := match goal with H : lanes_ok _ xs |- _ =>
  let HL := fresh "HL" in let HF := fresh "HF" in destruct H as [HL HF];
  match type of HL with _ = ?n => let m := eval vm_compute in n in change n with m in HL end;
  explode_forall xs end.

Definition width_ok (w : nat) : Prop := w = 2%nat \/ w = 4%nat \/ w = 8%nat.

Section P.
  Context {B : Type} (b0 : B) (bor : B -> B -> B).
  Hypothesis bor_l : forall b, bor b0 b = b.
  Hypothesis bor_r : forall b, bor b b0 = b.
  Notation spec_zero w := (repeat b0 w).

  Ltac sz := change (16 / 2)%nat with 8%nat in *; change (16 / 4)%nat with 4%nat in *; change (16 / 8)%nat with 2%nat in *.

  (** case split of an integer in a literal range *)
  Ltac zrange k lo hi :=
    let H := fresh in
    assert (H : k = lo \/ lo + 1 <= k <= hi) by lia;
    destruct H as [->|H];
    [|let lo' := eval vm_compute in (lo + 1) in
      lazymatch lo' with
      | hi => assert (k = hi) as -> by lia
      | _ => change (lo + 1) with lo' in H; zrange k lo' hi
      end].

  Lemma tab_const n (f : Z -> list B) c : (forall i, 0 <= i < Z.of_nat n -> f i = c) -> tab n f = repeat c n.
  Proof.
    intros H. symmetry. apply (list_ext_tab _ c); [apply repeat_length|].
    intros z Hz. rewrite H by auto. now apply znth_repeat.
  Qed.

  Lemma sse_shifted_lanes w xs k : width_ok w -> lanes_ok w xs ->
    chunks w (16 / w) (sse_shifted b0 w (concat xs) k) = shift_spec (spec_zero w) xs k.
  Proof.
    intros Hw Hx. destruct (Z_le_gt_dec (-8) k) as [H1|H1]; [destruct (Z_le_gt_dec k 8) as [H2|H2]|].
    2, 3: unfold sse_shifted, shift_spec; destruct (Z.eqb_spec k 0); [lia|];
      destruct (Z.ltb_spec 0 k); destruct (Z.leb_spec k 8); destruct (Z.leb_spec (-8) k); destruct (Z.ltb_spec k 0); try lia; cbn [andb];
      rewrite (tab_const _ _ (repeat b0 w));
      [destruct Hx as [-> _]; destruct Hw as [->|[->| ->]]; reflexivity
      |intros i Hi; apply znth_out; destruct Hx as [Hx _]; destruct Hw as [->|[->| ->]]; cbn in Hx; lia].
    destruct Hw as [->|[->| ->]]; explode xs; zrange k (-8) 8; reflexivity.
  Qed.

  Lemma alignr_sse2 s a b : length a = 16%nat -> length b = 16%nat -> (s < 32)%nat ->
    alignr_epi8 b0 bor false s a b = mm_alignr_epi8 8 b0 a b s.
  Proof.
    intros Ha Hb Hs. explode_list a. explode_list b.
    do 32 (destruct s as [|s]; [cbv; rewrite ?bor_l, ?bor_r; reflexivity|]). lia.
  Qed.

  Lemma length_concat w (xs : list (list B)) : lanes_ok w xs -> width_ok w -> length (concat xs) = 16%nat.
  Proof. intros Hx Hw. destruct Hw as [->|[->| ->]]; explode xs; reflexivity. Qed.

  Lemma alignr_any ssse3 s a b : length a = 16%nat -> length b = 16%nat ->
    alignr_epi8 b0 bor ssse3 s a b = mm_alignr_epi8 8 b0 a b (Nat.modulo s 32).
  Proof.
    intros Ha Hb. destruct ssse3; [reflexivity|].
    rewrite <- (alignr_sse2 (Nat.modulo s 32)); auto; [|apply Nat.mod_upper_bound; lia].
    unfold alignr_epi8. now rewrite Nat.mod_mod by lia.
  Qed.

  Lemma sse_shifted_in_lanes ssse3 w xs s k : width_ok w -> lanes_ok w xs -> lanes_ok w s ->
    - 2 * Z.of_nat (16 / w) < k < 2 * Z.of_nat (16 / w) \/ 16 <= k \/ k <= - 2 * Z.of_nat (16 / w) ->
    chunks w (16 / w) (sse_shifted_in b0 bor ssse3 w (concat xs) k (concat s)) = shiftin_spec (spec_zero w) xs s k.
  Proof.
    intros Hw Hx Hs Hk.
    pose proof (length_concat w xs Hx Hw) as Lx. pose proof (length_concat w s Hs Hw) as Ls.
    unfold sse_shifted_in. rewrite !alignr_any by auto.
    destruct Hk as [Hk|Hk].
    - destruct Hw as [->|[->| ->]]; cbn [Nat.div Nat.divmod fst Z.of_nat Pos.of_succ_nat Pos.succ Z.mul Z.opp Pos.mul Pos.add] in Hk; explode xs; explode s.
      + zrange k (-15) 15; reflexivity.
      + zrange k (-7) 7; reflexivity.
      + zrange k (-3) 3; reflexivity.
    - replace ((- Z.of_nat (16 / w) <=? k) && (-15 <=? k) && (k <=? 15)) with false.
      2:{ symmetry. apply not_true_is_false. intros Q. apply andb_prop in Q. destruct Q as [Q1 Q2]. apply andb_prop in Q1.
          destruct Q1 as [Q1 Q3]. apply Z.leb_le in Q1, Q2, Q3.
          destruct Hw as [->|[->| ->]]; sz; lia. }
      rewrite sse_shifted_lanes by auto. unfold shift_spec, shiftin_spec.
      destruct Hx as [Lx' _], Hs as [Ls' _]. rewrite Lx', Ls'.
      apply tab_ext. intros z Hz. rewrite !znth_out; auto.
      + rewrite !app_length, Lx', Ls'. destruct Hw as [->|[->| ->]]; sz; lia.
      + rewrite Ls'. destruct Hw as [->|[->| ->]]; sz; lia.
  Qed.

  Lemma sse_rotated_lanes ssse3 w xs k : width_ok w -> lanes_ok w xs ->
    chunks w (16 / w) (sse_rotated b0 bor ssse3 w (concat xs) k) = rotate_spec (spec_zero w) xs k.
  Proof.
    intros Hw Hx. pose proof (length_concat w xs Hx Hw) as Lx.
    assert (E : (k mod 2 ^ 32) mod Z.of_nat (16 / w) = k mod Z.of_nat (16 / w)).
    { destruct Hw as [->|[->| ->]]; cbn [Nat.div Nat.divmod fst].
      - symmetry. apply (Zmod_div_mod 8 (2 ^ 32) k); try reflexivity. exists (2 ^ 29). reflexivity.
      - symmetry. apply (Zmod_div_mod 4 (2 ^ 32) k); try reflexivity. exists (2 ^ 30). reflexivity.
      - symmetry. apply (Zmod_div_mod 2 (2 ^ 32) k); try reflexivity. exists (2 ^ 31). reflexivity. }
    unfold sse_rotated. rewrite E. rewrite alignr_any by auto.
    assert (R : rotate_spec (spec_zero w) xs k = rotate_spec (spec_zero w) xs (k mod Z.of_nat (16 / w))).
    { unfold rotate_spec. destruct Hx as [-> _]. apply tab_ext. intros z Hz.
      rewrite Z.add_mod_idemp_r; auto. destruct Hw as [->|[->| ->]]; discriminate. }
    rewrite R. clear R E.
    assert (Hr : 0 <= k mod Z.of_nat (16 / w) < Z.of_nat (16 / w)).
    { apply Z.mod_pos_bound. destruct Hw as [->|[->| ->]]; reflexivity. }
    set (j := k mod Z.of_nat (16 / w)) in *. clearbody j. clear k.
    destruct Hw as [->|[->| ->]]; cbn [Nat.div Nat.divmod fst Z.of_nat Pos.of_succ_nat Pos.succ] in Hr; explode xs.
    - assert (0 <= j <= 7) by lia. zrange j 0 7; reflexivity.
    - assert (0 <= j <= 3) by lia. zrange j 0 3; reflexivity.
    - assert (0 <= j <= 1) by lia. zrange j 0 1; reflexivity.
  Qed.

  Lemma sse_reversed_lanes w (xs : list (list B)) : width_ok w -> lanes_ok w xs ->
    chunks w (16 / w) (sse_reversed w (concat xs)) = rev xs.
  Proof. intros Hw Hx. destruct Hw as [->|[->| ->]]; explode xs; reflexivity. Qed.
  Lemma sse_reversed_epi32_lanes (xs : list (list B)) : lanes_ok 4 xs ->
    chunks 4 4 (sse_reversed_epi32 (concat xs)) = rev xs.
  Proof. intros Hx. explode xs; reflexivity. Qed.

  Lemma sse_interleave_low_lanes w (xs ys : list (list B)) : width_ok w -> lanes_ok w xs -> lanes_ok w ys ->
    chunks w (16 / w) (sse_interleave_low w (concat xs) (concat ys)) = firstn (16 / w) (interleave_spec xs ys).
  Proof. intros Hw Hx Hy. destruct Hw as [->|[->| ->]]; explode xs; explode ys; reflexivity. Qed.
  Lemma sse_interleave_high_lanes w (xs ys : list (list B)) : width_ok w -> lanes_ok w xs -> lanes_ok w ys ->
    chunks w (16 / w) (sse_interleave_high w (concat xs) (concat ys)) = skipn (16 / w) (interleave_spec xs ys).
  Proof. intros Hw Hx Hy. destruct Hw as [->|[->| ->]]; explode xs; explode ys; reflexivity. Qed.
End P.
