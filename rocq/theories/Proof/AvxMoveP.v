(** The AVX data movement functions, byte by byte. *)
From Coq Require Import ZArith Znumtheory List Bool Lia Permutation.
From Verif.Spec Require Import Seq NativeSpec.
From Verif.Model Require Import SimdArray SseReg SseMove ScalarVec AvxReg AvxMove.
From Verif.Proof Require Import SeqP ScalarVecP SseMoveP SseVecP.
Import ListNotations.
Local Open Scope Z_scope.

(** the lanes of a 256-bit register *)
Definition ychunks {B} (w : nat) (r : ymm B) : list (list B) :=
  chunks w (16 / w) (lo128 r) ++ chunks w (16 / w) (hi128 r).
Definition yconcat {B} (l h : list (list B)) : ymm B := Ymm (concat l) (concat h).

Ltac zrange k lo hi :=
    let H := fresh in
    assert (H : k = lo \/ lo + 1 <= k <= hi) by lia;
    destruct H as [->|H];
    [|let lo' := eval vm_compute in (lo + 1) in
      lazymatch lo' with
      | hi => assert (k = hi) as -> by lia
      | _ => change (lo + 1) with lo' in H; zrange k lo' hi
      end].
Ltac sz := change (16 / 2)%nat with 8%nat in *; change (16 / 4)%nat with 4%nat in *; change (16 / 8)%nat with 2%nat in *;
           change (32 / 2)%nat with 16%nat in *; change (32 / 4)%nat with 8%nat in *; change (32 / 8)%nat with 4%nat in *.

Section P.
  Context {B : Type} (b0 : B) (bor : B -> B -> B).
  Hypothesis bor_l : forall b, bor b0 b = b.
  Hypothesis bor_r : forall b, bor b b0 = b.
  Notation z16 := (repeat b0 16).

  Lemma avx_shifted_lanes w l h k : width_ok w -> lanes_ok w l -> lanes_ok w h ->
    ychunks w (avx_shifted b0 z16 w (yconcat l h) k) = shift_spec (repeat b0 w) (l ++ h) k.
  Proof.
    intros Hw Hl Hh. destruct (Z_le_gt_dec (-15) k) as [H1|H1]; [destruct (Z_le_gt_dec k 15) as [H2|H2]|].
    2, 3: unfold avx_shifted, shift_spec; destruct (Z.eqb_spec k 0); [lia|];
      match goal with |- context [?x && ?y] => assert (x && y = false) as -> by
        (destruct Hw as [->|[->| ->]]; [destruct (Z.leb_spec (- (15)) k), (Z.leb_spec k 15)|destruct (Z.leb_spec (- (7)) k), (Z.leb_spec k 7)|destruct (Z.leb_spec (- (3)) k), (Z.leb_spec k 3)]; try reflexivity; lia) end;
      rewrite (tab_const _ _ (repeat b0 w));
      [rewrite app_length; destruct Hl as [-> _], Hh as [-> _]; destruct Hw as [->|[->| ->]]; reflexivity
      |intros i Hi; apply znth_out; rewrite app_length in *; destruct Hl as [Hl _], Hh as [Hh _]; rewrite Hl, Hh in *; destruct Hw as [->|[->| ->]]; sz; lia].
    destruct Hw as [->|[->| ->]]; explode l; explode h; zrange k (-15) 15; reflexivity.
  Qed.

  Lemma avx_rotated_lanes w l h k : width_ok w -> lanes_ok w l -> lanes_ok w h ->
    ychunks w (avx_rotated b0 w (yconcat l h) k) = rotate_spec (repeat b0 w) (l ++ h) k.
  Proof.
    intros Hw Hl Hh.
    assert (E : (k mod 2 ^ 32) mod Z.of_nat (32 / w) = k mod Z.of_nat (32 / w)).
    { destruct Hw as [->|[->| ->]]; cbn [Nat.div Nat.divmod fst].
      - symmetry. apply (Zmod_div_mod 16 (2 ^ 32) k); try reflexivity. exists (2 ^ 28). reflexivity.
      - symmetry. apply (Zmod_div_mod 8 (2 ^ 32) k); try reflexivity. exists (2 ^ 29). reflexivity.
      - symmetry. apply (Zmod_div_mod 4 (2 ^ 32) k); try reflexivity. exists (2 ^ 30). reflexivity. }
    unfold avx_rotated. rewrite E.
    assert (L : length (l ++ h) = (32 / w)%nat).
    { rewrite app_length. destruct Hl as [-> _], Hh as [-> _]. destruct Hw as [->|[->| ->]]; reflexivity. }
    assert (R : rotate_spec (repeat b0 w) (l ++ h) k = rotate_spec (repeat b0 w) (l ++ h) (k mod Z.of_nat (32 / w))).
    { unfold rotate_spec. rewrite L. apply tab_ext. intros z Hz.
      rewrite Z.add_mod_idemp_r; auto. destruct Hw as [->|[->| ->]]; discriminate. }
    rewrite R. clear R E.
    assert (Hr : 0 <= k mod Z.of_nat (32 / w) < Z.of_nat (32 / w)).
    { apply Z.mod_pos_bound. destruct Hw as [->|[->| ->]]; reflexivity. }
    set (j := k mod Z.of_nat (32 / w)) in *. clearbody j. clear k L.
    destruct Hw as [->|[->| ->]]; sz; explode l; explode h.
    - assert (0 <= j <= 15) by lia. zrange j 0 15; reflexivity.
    - assert (0 <= j <= 7) by lia. zrange j 0 7; reflexivity.
    - assert (0 <= j <= 3) by lia. zrange j 0 3; reflexivity.
  Qed.

  Lemma avx_reversed_lanes w (l h : list (list B)) : width_ok w -> lanes_ok w l -> lanes_ok w h ->
    ychunks w (avx_reversed b0 w (yconcat l h)) = rev (l ++ h).
  Proof. intros Hw Hl Hh. destruct Hw as [->|[->| ->]]; explode l; explode h; reflexivity. Qed.

  Lemma avx_interleave_low_lanes w (l h l' h' : list (list B)) : width_ok w -> lanes_ok w l -> lanes_ok w h -> lanes_ok w l' -> lanes_ok w h' ->
    ychunks w (avx_interleave_low b0 w (yconcat l h) (yconcat l' h')) = firstn (32 / w) (interleave_spec (l ++ h) (l' ++ h')).
  Proof. intros Hw Hl Hh Hl' Hh'. destruct Hw as [->|[->| ->]]; explode l; explode h; explode l'; explode h'; reflexivity. Qed.
  Lemma avx_interleave_high_lanes w (l h l' h' : list (list B)) : width_ok w -> lanes_ok w l -> lanes_ok w h -> lanes_ok w l' -> lanes_ok w h' ->
    ychunks w (avx_interleave_high b0 w (yconcat l h) (yconcat l' h')) = skipn (32 / w) (interleave_spec (l ++ h) (l' ++ h')).
  Proof. intros Hw Hl Hh Hl' Hh'. destruct Hw as [->|[->| ->]]; explode l; explode h; explode l'; explode h'; reflexivity. Qed.

  Lemma avx_shifted_in_lanes constant w l h l' h' k : width_ok w -> lanes_ok w l -> lanes_ok w h -> lanes_ok w l' -> lanes_ok w h' ->
    ychunks w (avx_shifted_in b0 bor z16 constant w (yconcat l h) k (yconcat l' h')) = shiftin_spec (repeat b0 w) (l ++ h) (l' ++ h') k.
  Proof.
    intros Hw Hl Hh Hl' Hh'.
    assert (L : length (l ++ h) = (32 / w)%nat).
    { rewrite app_length. destruct Hl as [-> _], Hh as [-> _]. destruct Hw as [->|[->| ->]]; reflexivity. }
    assert (L' : length (l' ++ h') = (32 / w)%nat).
    { rewrite app_length. destruct Hl' as [-> _], Hh' as [-> _]. destruct Hw as [->|[->| ->]]; reflexivity. }
    destruct (Z_le_gt_dec (-31) k) as [H1|H1]; [destruct (Z_le_gt_dec k 31) as [H2|H2]|].
    - destruct Hw as [->|[->| ->]]; explode l; explode h; explode l'; explode h'; zrange k (-31) 31;
      destruct constant; cbv; rewrite ?bor_l, ?bor_r; reflexivity.
    - assert (G : avx_shifted_in b0 bor z16 constant w (yconcat l h) k (yconcat l' h') = avx_or bor (ysetzero 8 b0) (ysetzero 8 b0)).
      { unfold avx_shifted_in.
        replace (k * 2 =? Z.of_nat (32 / w)) with false by (symmetry; apply Z.eqb_neq; destruct Hw as [->|[->| ->]]; sz; lia).
        replace (k * 2 =? - Z.of_nat (32 / w)) with false by (symmetry; apply Z.eqb_neq; destruct Hw as [->|[->| ->]]; sz; lia).
        destruct (Z.eqb_spec k 1); [lia|]. destruct (Z.eqb_spec k 2); [lia|]. destruct (Z.eqb_spec k 3); [lia|]. cbn [orb andb].
        destruct (Z.ltb_spec 0 k); [|lia].
        assert (Z : forall j r, 16 <= j -> avx_shifted b0 z16 w r j = ysetzero 8 b0).
        { intros j r Hj. unfold avx_shifted. destruct (Z.eqb_spec j 0); [lia|].
          match goal with |- context [?x && ?y] => replace (x && y) with false end; auto.
          symmetry. apply andb_false_intro2. apply Z.leb_gt. destruct Hw as [->|[->| ->]]; lia. }
        rewrite !Z by (destruct Hw as [->|[->| ->]]; sz; lia). now destruct constant. }
      rewrite G. unfold shiftin_spec. rewrite L, (tab_const _ _ (repeat b0 w)).
      + destruct Hw as [->|[->| ->]]; cbv; rewrite ?bor_l; reflexivity.
      + intros i Hi. apply znth_out. rewrite !app_length in *. destruct Hw as [->|[->| ->]]; sz; lia.
    - assert (G : avx_shifted_in b0 bor z16 constant w (yconcat l h) k (yconcat l' h') = avx_or bor (ysetzero 8 b0) (ysetzero 8 b0)).
      { unfold avx_shifted_in.
        replace (k * 2 =? Z.of_nat (32 / w)) with false by (symmetry; apply Z.eqb_neq; destruct Hw as [->|[->| ->]]; sz; lia).
        replace (k * 2 =? - Z.of_nat (32 / w)) with false by (symmetry; apply Z.eqb_neq; destruct Hw as [->|[->| ->]]; sz; lia).
        destruct (Z.eqb_spec k 1); [lia|]. destruct (Z.eqb_spec k 2); [lia|]. destruct (Z.eqb_spec k 3); [lia|]. cbn [orb andb].
        destruct (Z.ltb_spec 0 k); [lia|].
        assert (Z : forall j r, j <= -16 -> avx_shifted b0 z16 w r j = ysetzero 8 b0).
        { intros j r Hj. unfold avx_shifted. destruct (Z.eqb_spec j 0); [lia|].
          match goal with |- context [?x && ?y] => replace (x && y) with false end; auto.
          symmetry. apply andb_false_intro1. apply Z.leb_gt. destruct Hw as [->|[->| ->]]; lia. }
        rewrite !Z by (destruct Hw as [->|[->| ->]]; sz; lia). now destruct constant. }
      rewrite G. unfold shiftin_spec. rewrite L, (tab_const _ _ (repeat b0 w)).
      + destruct Hw as [->|[->| ->]]; cbv; rewrite ?bor_l; reflexivity.
      + intros i Hi. apply znth_out. rewrite !app_length in *. destruct Hw as [->|[->| ->]]; sz; lia.
  Qed.
End P.
