(** simd_cast of SSE and AVX masks. *)
From Coq Require Import ZArith List Bool Lia.
From Verif.Spec Require Import Seq VectorSpec.
From Verif.Model Require Import Word SseReg SseMove SseInt SseBuild SseMask SimdArray
  AvxReg AvxMove AvxBuild AvxShuffle AvxMask AvxConvert.
From Verif.Proof Require Import SeqP WordP SseIntP ConvertRegP SseMaskP AvxMoveP AvxVecP AvxShuffleP AvxMaskP SseBuildP SortNetP ConvertMain AvxConvertP AvxCastP AvxCast2P.
Import ListNotations.
Local Open Scope Z_scope.

(** ** the instructions on masks *)
Section Bools.
  Context (a b c d e f g h i j k l m n o p : bool).
  Notation M := mask_reg.
  Lemma p32_8 : packs_epi32 (M 8 [a; b]) (M 8 [c; d]) = M 4 [a; b; c; d].
  Proof using. destruct a, b, c, d; vm_compute; reflexivity. Qed.
  Lemma p16_8 : packs_epi16 (M 8 [a; b]) (M 8 [c; d]) = M 4 [a; b; c; d].
  Proof using. destruct a, b, c, d; vm_compute; reflexivity. Qed.
  Lemma p32_4 : packs_epi32 (M 4 [a; b; c; d]) (M 4 [e; f; g; h]) = M 2 [a; b; c; d; e; f; g; h].
  Proof using.
    unfold packs_epi32, mask_reg. rewrite !lanes_pack by reflexivity. rewrite <- map_app, map_map. apply (f_equal pack). apply map_ext. intros q. destruct q; apply word_ext; reflexivity.
  Qed.
  Lemma p16_4 : packs_epi16 (M 4 [a; b; c; d]) (M 4 [e; f; g; h]) = M 2 [a; b; c; d; e; f; g; h].
  Proof using.
    assert (P : forall q r s t, M 4 [q; r; s; t] = M 2 [q; q; r; r; s; s; t; t]) by (intros [] [] [] []; reflexivity).
    rewrite !P, packs16_masks by reflexivity. cbn [app map].
    assert (E : forall q, enc (wmask 2 q) = enc (wmask 1 q) ++ enc (wmask 1 q)) by (intros []; reflexivity).
    unfold mask_reg, pack, to_reg. cbn [map concat]. rewrite !E, <- !app_assoc. reflexivity.
  Qed.
  Lemma lo4 : unpacklo 8 4 (M 4 [a; b; c; d]) (M 4 [a; b; c; d]) = M 8 [a; b].
  Proof using. destruct a, b, c, d; vm_compute; reflexivity. Qed.
  Lemma hi4 : unpackhi 8 4 (M 4 [a; b; c; d]) (M 4 [a; b; c; d]) = M 8 [c; d].
  Proof using. destruct a, b, c, d; vm_compute; reflexivity. Qed.
  Lemma enc2 q : exists x, enc (wmask 1 q) = [x] /\ enc (wmask 2 q) = [x; x] /\ enc (wmask 4 q) = [x; x; x; x].
  Proof using. destruct q; eexists; repeat split; reflexivity. Qed.
  Ltac bytes := unfold mask_reg, pack, to_reg; cbn [map concat];
    repeat match goal with |- context [wmask _ ?q] => let x := fresh "x" in let E1 := fresh in let E2 := fresh in let E4 := fresh in destruct (enc2 q) as (x & E1 & E2 & E4); rewrite ?E1, ?E2, ?E4; clear E1 E2 E4 end; reflexivity.
  Lemma lo2 : unpacklo 8 2 (M 2 [a; b; c; d; e; f; g; h]) (M 2 [a; b; c; d; e; f; g; h]) = M 4 [a; b; c; d].
  Proof using. bytes. Qed.
  Lemma hi2 : unpackhi 8 2 (M 2 [a; b; c; d; e; f; g; h]) (M 2 [a; b; c; d; e; f; g; h]) = M 4 [e; f; g; h].
  Proof using. bytes. Qed.
  Lemma lo1 : unpacklo 8 1 (M 2 [a; b; c; d; e; f; g; h]) (M 2 [a; b; c; d; e; f; g; h]) = M 4 [a; b; c; d].
  Proof using. bytes. Qed.
  Lemma hi1 : unpackhi 8 1 (M 2 [a; b; c; d; e; f; g; h]) (M 2 [a; b; c; d; e; f; g; h]) = M 4 [e; f; g; h].
  Proof using. bytes. Qed.
  Lemma lo2_4 : unpacklo 8 2 (M 4 [a; b; c; d]) (M 4 [a; b; c; d]) = M 8 [a; b].
  Proof using. destruct a, b, c, d; vm_compute; reflexivity. Qed.
  Lemma hi2_4 : unpackhi 8 2 (M 4 [a; b; c; d]) (M 4 [a; b; c; d]) = M 8 [c; d].
  Proof using. destruct a, b, c, d; vm_compute; reflexivity. Qed.
  Lemma lo1_4 : unpacklo 8 1 (M 4 [a; b; c; d]) (M 4 [a; b; c; d]) = M 8 [a; b].
  Proof using. destruct a, b, c, d; vm_compute; reflexivity. Qed.
  Lemma hi1_4 : unpackhi 8 1 (M 4 [a; b; c; d]) (M 4 [a; b; c; d]) = M 8 [c; d].
  Proof using. destruct a, b, c, d; vm_compute; reflexivity. Qed.
  Lemma lo4_2 : unpacklo 8 4 (M 2 [a; b; c; d; e; f; g; h]) (M 2 [i; j; k; l; m; n; o; p]) = M 2 [a; b; i; j; c; d; k; l].
  Proof using. bytes. Qed.
  Lemma hi4_2 : unpackhi 8 4 (M 2 [a; b; c; d; e; f; g; h]) (M 2 [i; j; k; l; m; n; o; p]) = M 2 [e; f; m; n; g; h; o; p].
  Proof using. bytes. Qed.
  Lemma perm4 : ymem_permute4x64 8 0 2 1 3 (Ymm (M 4 [a; b; c; d]) (M 4 [e; f; g; h])) = Ymm (M 4 [a; b; e; f]) (M 4 [c; d; g; h]).
  Proof using. bytes. Qed.
  Lemma perm2 : ymem_permute4x64 8 0 2 1 3 (Ymm (M 2 [a; b; c; d; e; f; g; h]) (M 2 [i; j; k; l; m; n; o; p])) = Ymm (M 2 [a; b; c; d; i; j; k; l]) (M 2 [e; f; g; h; m; n; o; p]).
  Proof using. bytes. Qed.
  (* an SSE register in an AVX register: the upper half only reaches the parts that are not used *)
  Lemma perm2u u : length u = 16%nat -> yunpacklo 8 2 (ymem_permute4x64 8 0 2 1 3 (Ymm (M 2 [a; b; c; d; e; f; g; h]) u)) (ymem_permute4x64 8 0 2 1 3 (Ymm (M 2 [a; b; c; d; e; f; g; h]) u)) = Ymm (M 4 [a; b; c; d]) (M 4 [e; f; g; h]).
  Proof using. intros L. do 16 (destruct u as [|? u]; [discriminate L|]). destruct u; [|discriminate L]. bytes. Qed.
End Bools.
Lemma mzero w : lane_ok w -> mm_setzero = mask_reg w (repeat false (16 / w)).
Proof. intros [->|[->|[->| ->]]]; reflexivity. Qed.

(** ** results *)
Definition ymasked undef to (ks : list bool) (r : yreg) : Prop :=
  r = ymask_reg (esize to) (cast_spec (32 / esize to) ks) \/
  ((length ks <= 16 / esize to)%nat /\ r = Ymm (mask_reg (esize to) (cast_spec (16 / esize to) ks)) undef).
Ltac bools L := repeat match type of L with
  | length ?l = Datatypes.S _ => let b := fresh "b" in destruct l as [|b l]; [discriminate L|]; cbn [length] in L; apply Nat.succ_inj in L
  | length ?l = 0%nat => destruct l; [clear L|discriminate L] end.
Ltac ybools := repeat match goal with L : length ?l = ?n |- _ => is_var l; let v := eval vm_compute in n in change (length l = v) in L; bools L end.
Lemma ymask_reg2 l h : length l = 8%nat -> length h = 8%nat -> ymask_reg 2 (l ++ h) = Ymm (mask_reg 2 l) (mask_reg 2 h).
Proof. intros Hl Hh. unfold ymask_reg, mask_reg. rewrite map_app. apply ypack_app. rewrite map_length. exact Hl. Qed.
Lemma ymask_reg4 l h : length l = 4%nat -> length h = 4%nat -> ymask_reg 4 (l ++ h) = Ymm (mask_reg 4 l) (mask_reg 4 h).
Proof. intros Hl Hh. unfold ymask_reg, mask_reg. rewrite map_app. apply ypack_app. rewrite map_length. exact Hl. Qed.
Lemma ymask_reg8 l h : length l = 2%nat -> length h = 2%nat -> ymask_reg 8 (l ++ h) = Ymm (mask_reg 8 l) (mask_reg 8 h).
Proof. intros Hl Hh. unfold ymask_reg, mask_reg. rewrite map_app. apply ypack_app. rewrite map_length. exact Hl. Qed.
Lemma y2 a b c d e f g h i j k l m n o p : ymask_reg 2 [a; b; c; d; e; f; g; h; i; j; k; l; m; n; o; p] = Ymm (mask_reg 2 [a; b; c; d; e; f; g; h]) (mask_reg 2 [i; j; k; l; m; n; o; p]).
Proof. now apply (ymask_reg2 [_;_;_;_;_;_;_;_] [_;_;_;_;_;_;_;_]). Qed.
Lemma y4 a b c d e f g h : ymask_reg 4 [a; b; c; d; e; f; g; h] = Ymm (mask_reg 4 [a; b; c; d]) (mask_reg 4 [e; f; g; h]).
Proof. now apply (ymask_reg4 [_;_;_;_] [_;_;_;_]). Qed.
Lemma y8 a b c d : ymask_reg 8 [a; b; c; d] = Ymm (mask_reg 8 [a; b]) (mask_reg 8 [c; d]).
Proof. now apply (ymask_reg8 [_;_] [_;_]). Qed.
Lemma z2 : mm_setzero = mask_reg 2 [false; false; false; false; false; false; false; false].
Proof. reflexivity. Qed.
Lemma z4 : mm_setzero = mask_reg 4 [false; false; false; false].
Proof. reflexivity. Qed.
Lemma z8 : mm_setzero = mask_reg 8 [false; false].
Proof. reflexivity. Qed.
Lemma packs16_zero4 a b c d : packs_epi16 (mask_reg 4 [a; b; c; d]) mm_setzero = mask_reg 2 [a; b; c; d; false; false; false; false].
Proof. rewrite z4. apply p16_4. Qed.
Lemma packs16_zero8 a b : packs_epi16 (mask_reg 8 [a; b]) mm_setzero = mask_reg 4 [a; b; false; false].
Proof. rewrite z8. apply p16_8. Qed.
Ltac mstep := unfold ypacks_epi32, ypacks_epi16, yunpacklo, ymap2, zeroExtend, cast256; cbn [lo128 hi128];
  repeat (rewrite ?p32_8, ?p16_8, ?p32_4, ?p16_4, ?lo4, ?hi4, ?lo2, ?hi2, ?lo1, ?hi1, ?lo2_4, ?hi2_4, ?lo1_4, ?hi1_4, ?lo4_2, ?hi4_2, ?perm4, ?perm2, ?packs16_zero4, ?packs16_zero8; cbn [lo128 hi128]).
Ltac yend := first [left; cbn [esize]; rewrite ?y2, ?y4, ?y8; reflexivity
  | left; cbn [esize]; unfold cast_spec, tab; cbn [seq map Nat.div Nat.divmod fst Nat.sub]; rewrite ?y2, ?y4, ?y8; first [reflexivity | rewrite ?z2, ?z4, ?z8; reflexivity]
  | right; split; [cbn; lia|reflexivity]].
Ltac some H := match type of H with Some ?x = Some ?y => assert (x = y) by congruence; clear H; subst y end.
Lemma ymasks_cast_ok undef avx2 from to (kss : list (list bool)) r : Forall (fun ks => length ks = (32 / esize from)%nat) kss ->
  ymasks_cast undef avx2 from to (map (ymask_reg (esize from)) kss) = Some r -> ymasked undef to (concat kss) r.
Proof.
  intros F H. unfold ymasks_cast in H. destruct (has256 avx2 from && has256 avx2 to); [|discriminate H].
  destruct kss as [|k0 [|k1 [|k2 [|k3 [|]]]]]; try (destruct from, to; discriminate H); cbn [map concat] in *;
    repeat match goal with H : Forall _ (_ :: _) |- _ => inversion H; clear H; subst end; rewrite ?app_nil_r.
  all: destruct from, to; try discriminate H; cbn [esize] in *; ybools; cbn [app]; rewrite ?y2, ?y4, ?y8 in H; cbn [ymask_cast Nat.div Nat.divmod fst Nat.sub Nat.eqb] in H; some H; mstep; yend.
Qed.
Ltac chop F := repeat match type of F with Forall _ (_ :: _) => let H := fresh in let F' := fresh in inversion F as [|? ? H F']; clear F; subst; rename F' into F end.
Lemma mask_cast_any e e' ks : length ks = (16 / esize e)%nat ->
  mask_cast (16 / esize e) (16 / esize e') (mask_reg (esize e) ks) = Some (mask_reg (esize e') (cast_spec (16 / esize e') ks)).
Proof.
  intros L. pose proof (mask_cast_ok (16 / esize e) (16 / esize e') ks) as H.
  destruct e, e'; apply H; auto; cbn; auto.
Qed.
Lemma xymasks_cast_ok undef avx2 from to (kss : list (list bool)) r : length undef = 16%nat -> Forall (fun ks => length ks = (16 / esize from)%nat) kss ->
  xymasks_cast undef avx2 from to (map (mask_reg (esize from)) kss) = Some r -> ymasked undef to (concat kss) r.
Proof.
  intros U F H. symmetry in U. unfold xymasks_cast in H. destruct (has256 avx2 to); [|discriminate H].
  destruct kss as [|k0 [|k1 [|k2 [|k3 [|]]]]]; try (destruct from, to; discriminate H); cbn [map concat] in *;
    repeat match goal with H : Forall _ (_ :: _) |- _ => inversion H; clear H; subst end; rewrite ?app_nil_r.
  all: destruct from, to; try discriminate H; cbn [esize] in *; ybools; cbn [app]; cbn [xmask_cast mask_cast option_map Nat.div Nat.divmod fst Nat.sub Nat.eqb] in H; some H;
    unfold cast256; rewrite ?perm2u by (symmetry; exact U); mstep; yend.
Qed.
Ltac xend := cbn [esize]; unfold cast_spec, tab; cbn [seq map Nat.div Nat.divmod fst Nat.sub]; first [reflexivity | rewrite ?z2, ?z4, ?z8; reflexivity].
Lemma yxmasks_cast_ok avx2 from to (kss : list (list bool)) r : Forall (fun ks => length ks = (32 / esize from)%nat) kss ->
  yxmasks_cast avx2 from to (map (ymask_reg (esize from)) kss) = Some r -> r = mask_reg (esize to) (cast_spec (16 / esize to) (concat kss)).
Proof.
  intros F H. unfold yxmasks_cast in H. destruct (has256 avx2 from); [|discriminate H].
  destruct kss as [|k0 [|k1 [|k2 kss]]]; try (destruct from, to; discriminate H); cbn [map concat] in *;
    repeat match goal with H : Forall _ (_ :: _) |- _ => inversion H; clear H; subst end; rewrite ?app_nil_r.
  all: destruct from, to; try discriminate H; cbn [esize] in *; ybools; cbn [app]; rewrite ?y2, ?y4, ?y8 in H; cbn [lo128 hi128 mask_cast Nat.div Nat.divmod fst Nat.sub Nat.eqb] in H; some H; mstep; xend.
Qed.
Lemma xmask_cast_ok from to (kss : list (list bool)) r : Forall (fun ks => length ks = (16 / esize from)%nat) kss ->
  xmask_cast (16 / esize from) (16 / esize to) (map (mask_reg (esize from)) kss) = Some r -> r = mask_reg (esize to) (cast_spec (16 / esize to) (concat kss)).
Proof.
  intros F H. unfold xmask_cast in H.
  destruct kss as [|k0 [|k1 [|k2 [|k3 [|]]]]]; try discriminate H; cbn [map concat] in *;
    repeat match goal with H : Forall _ (_ :: _) |- _ => inversion H; clear H; subst end; rewrite ?app_nil_r.
  all: destruct from, to; try discriminate H; cbn [esize] in *; ybools; cbn [app]; cbn [mask_cast Nat.div Nat.divmod fst Nat.sub Nat.mul Nat.add Nat.eqb] in H; some H; mstep; xend.
Qed.

(** ** with an offset *)
Lemma mask_srli w ks k : lane_ok w -> (k * w < 16)%nat -> length ks = (16 / w)%nat -> mm_srli (mask_reg w ks) (k * w) = mask_reg w (skipn k ks ++ repeat false k).
Proof.
  intros Hw K L. unfold mask_reg. rewrite srli_pack by exact K. rewrite map_app, skipn_map, map_repeat. reflexivity.
Qed.
Lemma cast_skip n k (ks : list bool) : (k + n <= length ks)%nat -> cast_spec n (skipn k ks ++ repeat false k) = firstn n (skipn k ks).
Proof.
  intros H. rewrite cast_firstn by (rewrite skipn_length; lia). set (l := skipn k ks). assert (Ll : (n <= length l)%nat) by (unfold l; rewrite skipn_length; lia). clearbody l.
  rewrite <- (firstn_skipn n l) at 1. rewrite cast_firstn by (rewrite firstn_length; lia). replace n with (length (firstn n l)) at 1 by (rewrite firstn_length; lia). apply cast_self.
Qed.
Lemma xmask_cast_offset_ok from to offset ks r : length ks = (16 / esize from)%nat ->
  xmask_cast_offset from to offset (mask_reg (esize from) ks) = Some r ->
  r = mask_reg (esize to) (firstn (16 / esize to) (skipn (offset * (16 / esize to)) ks)).
Proof.
  intros L H. unfold xmask_cast_offset in H. cbv zeta in H. set (N := (16 / esize to)%nat) in *. set (k := (offset * N)%nat) in *.
  replace (esize from * offset * N)%nat with (k * esize from)%nat in H by (unfold k; lia).
  destruct (Nat.ltb_spec 0 (k * esize from)) as [K0|]; [|discriminate H]. destruct (Nat.ltb_spec (k * esize from) 16) as [K16|]; [|discriminate H]. cbn [andb] in H.
  rewrite mask_srli in H by (auto; apply lane_ok_e). unfold N in H. rewrite mask_cast_any in H.
  - fold N in H. rewrite cast_skip in H; [congruence|]. rewrite L. unfold k, N in *. clear - K16 K0. destruct from, to; cbn [esize] in *; sizes; lia.
  - rewrite app_length, skipn_length, repeat_length, L. clear - K16. destruct from; cbn [esize] in *; sizes; lia.
Qed.
Lemma ymask_cast_offset_ok avx2 from to offset ks r : length ks = (32 / esize from)%nat ->
  ymask_cast_offset avx2 from to offset (ymask_reg (esize from) ks) = Some r ->
  r = ymask_reg (esize to) (firstn (32 / esize to) (skipn (offset * (32 / esize to)) ks)).
Proof.
  intros L H. unfold ymask_cast_offset in H. destruct (has256 avx2 from && has256 avx2 to); [|discriminate H].
  destruct from, to; try discriminate H; cbn [esize] in *; destruct offset as [|[|[|[|offset]]]]; try discriminate H; ybools; rewrite ?y2, ?y4, ?y8 in H;
    cbn [lo128 hi128 Nat.div Nat.divmod fst Nat.sub Nat.mul Nat.add Nat.eqb] in H; some H; mstep; sizes; cbn [Nat.mul Nat.add skipn firstn]; rewrite ?y2, ?y4, ?y8; reflexivity.
Qed.
Lemma xymask_cast_offset_ok from to offset ks r : length ks = (16 / esize from)%nat ->
  xymask_cast_offset from to offset (mask_reg (esize from) ks) = Some r ->
  r = ymask_reg (esize to) (firstn (32 / esize to) (skipn (offset * (32 / esize to)) ks)).
Proof.
  intros L H. unfold xymask_cast_offset in H.
  destruct from, to; try discriminate H; cbn [esize] in *; destruct offset as [|[|offset]]; try discriminate H; ybools; some H; mstep; sizes; cbn [Nat.mul Nat.add skipn firstn]; rewrite ?y2, ?y4, ?y8; reflexivity.
Qed.
Lemma yxmask_cast_offset_ok avx2 from to offset ks r : length ks = (32 / esize from)%nat ->
  yxmask_cast_offset avx2 from to offset (ymask_reg (esize from) ks) = Some r ->
  r = mask_reg (esize to) (firstn (16 / esize to) (skipn (offset * (16 / esize to)) ks)).
Proof.
  intros L H. unfold yxmask_cast_offset in H. cbv zeta in H. set (N := (16 / esize to)%nat) in *. set (k := (offset * N)%nat) in *.
  replace (esize from * offset * N)%nat with (k * esize from)%nat in H by (unfold k; lia). destruct (has256 avx2 from); [|discriminate H]. cbn [andb] in H.
  destruct (Nat.ltb_spec 0 (k * esize from)) as [K0|]; [|discriminate H]. destruct (Nat.ltb_spec (k * esize from) 32) as [K32|]; [|discriminate H]. cbn [andb] in H.
  assert (S : (esize from <= esize to)%nat) by (unfold k, N in *; clear - K0 K32; destruct from, to; cbn [esize] in *; sizes; lia).
  destruct (ymask_split (esize from) ks (esize_ok from) L) as (l & h & -> & Ll & Lh & E). rewrite E in H. cbn [lo128 hi128] in H. clear E.
  assert (KB : (k <= 16 / esize from + 16 / esize from)%nat) by (clear - K32; destruct from; cbn [esize] in *; sizes; lia).
  assert (KN : (k + N <= length (l ++ h))%nat) by (rewrite L; unfold k, N in *; clear - K0 K32; destruct from, to; cbn [esize] in *; sizes; lia).
  assert (NL : (N <= 16 / esize from)%nat) by (unfold N; clear - S; destruct from, to; cbn [esize] in *; try lia; vm_compute; lia).
  assert (C : exists l', mask_cast (16 / esize from) N (mask_reg (esize from) l') = Some r /\ length l' = (16 / esize from)%nat /\ firstn N (skipn k (l ++ h)) = firstn N l').
  { destruct (Nat.eqb_spec (k * esize from) 16) as [E16|E16].
    - assert (KE : k = (16 / esize from)%nat) by (clear - E16; destruct from; cbn [esize] in *; sizes; lia).
      exists h. split; [exact H|]. split; [exact Lh|]. rewrite skip_r by lia. replace (k - length l)%nat with 0%nat by lia. reflexivity.
    - unfold mask_reg in H. rewrite alignr_pack in H by (auto; try apply lane_ok_e; now rewrite map_length).
      set (Z := repeat false (16 / esize from + 16 / esize from)). assert (LZ : length Z = (16 / esize from + 16 / esize from)%nat) by apply repeat_length.
      assert (EZ : repeat (w0 (esize from)) (16 / esize from + 16 / esize from) = map (wmask (esize from)) Z).
      { unfold Z. rewrite map_repeat. reflexivity. }
      rewrite EZ, <- !map_app, skipn_map, firstn_map in H.
      eexists. split; [exact H|]. split; [rewrite firstn_length, skipn_length, !app_length, LZ, Ll, Lh; lia|].
      rewrite firstn_firstn, Nat.min_l by exact NL. rewrite app_assoc. symmetry. apply firstn_skip_l. exact KN. }
  destruct C as (l' & C & Ll' & ->). unfold N in C. rewrite mask_cast_any in C by exact Ll'. fold N in C.
  assert (G : cast_spec N l' = firstn N l').
  { pose proof (cast_skip N 0 l') as G. cbn [skipn repeat Nat.add] in G. rewrite app_nil_r in G. apply G. lia. }
  rewrite G in C. congruence.
Qed.
