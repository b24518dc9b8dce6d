(** Proofs about the AVX masks. *)
From Coq Require Import ZArith List Bool Lia.
From Verif.Spec Require Import VectorSpec Seq NativeSpec MaskSpec.
From Verif.Model Require Import Word Fp SseReg SseMove SortNet SseInt SimdArray SimdArrayOps ScalarVec SseBuild Mem SseMask AvxReg AvxMove AvxBuild AvxShuffle AvxMask.
From Verif.Proof Require Import SeqP WordP SseMoveP SseIntP SseEmulP ScalarVecP SseVecP SseMaskP PopcntP AvxMoveP AvxVecP AvxBuildP AvxShuffleP.
Import ListNotations.
Local Open Scope Z_scope.

(** the two halves of a mask *)
Lemma half_n w : width_ok w -> (32 / w = 16 / w + 16 / w)%nat.
Proof. intros Hw. by_width Hw; reflexivity. Qed.
Lemma ymask_split w m : width_ok w -> length m = (32 / w)%nat ->
  exists l h, m = l ++ h /\ length l = (16 / w)%nat /\ length h = (16 / w)%nat /\ ymask_reg w m = Ymm (mask_reg w l) (mask_reg w h).
Proof.
  intros Hw L. exists (firstn (16 / w) m), (skipn (16 / w) m). pose proof (half_n w Hw) as H.
  split; [symmetry; apply firstn_skipn|]. split; [rewrite firstn_length; lia|]. split; [rewrite skipn_length; lia|].
  unfold ymask_reg, mask_reg. rewrite ypack_halves, firstn_map, skipn_map. reflexivity.
Qed.
Lemma ymask_app w l h : length l = (16 / w)%nat -> ymask_reg w (l ++ h) = Ymm (mask_reg w l) (mask_reg w h).
Proof. intros L. unfold ymask_reg, mask_reg. rewrite map_app. apply ypack_app. now rewrite map_length. Qed.
Lemma ylanes_halves w (r : yreg) : ylanes w r = lanes w (lo128 r) ++ lanes w (hi128 r).
Proof. reflexivity. Qed.

Lemma ysign_lanes w m : width_ok w -> length m = (32 / w)%nat -> map negative (ylanes w (ymask_reg w m)) = m.
Proof.
  intros Hw L. destruct (ymask_split w m Hw L) as (l & h & -> & Ll & Lh & ->). rewrite ylanes_halves. cbn [lo128 hi128].
  rewrite map_app, !sign_lanes by auto. reflexivity.
Qed.
Lemma ysign_bytes w m : width_ok w -> length m = (32 / w)%nat ->
  map negative (ylanes 1 (ymask_reg w m)) = flat_map (fun b => repeat b w) m.
Proof.
  intros Hw L. destruct (ymask_split w m Hw L) as (l & h & -> & Ll & Lh & ->). rewrite ylanes_halves. cbn [lo128 hi128].
  rewrite map_app, !sign_bytes, flat_map_app by auto. reflexivity.
Qed.

(** toInt *)
Lemma bits_int m : bits_to_int m = to_int_spec m.
Proof. induction m as [|b m IH]; [reflexivity|]. cbn [bits_to_int to_int_spec]. now rewrite IH. Qed.
Lemma bits_div b (m : Z) : (Z.b2z b + 2 * m) / 2 = m.
Proof. rewrite Z.mul_comm, Z.div_add by lia. destruct b; reflexivity. Qed.
Lemma bits_odd b (m : Z) : Z.odd (Z.b2z b + 2 * m) = b.
Proof. rewrite Z.odd_add_mul_2. now destruct b. Qed.
Lemma pext_double : forall m,
  pext (2 * length m) (bits_to_int (flat_map (fun b => repeat b 2) m)) (bits_to_int (flat_map (fun _ => [true; false]) m)) = bits_to_int m.
Proof.
  induction m as [|b m IH]; [reflexivity|]. cbn [length]. replace (2 * S (length m))%nat with (S (S (2 * length m))) by lia.
  cbn [flat_map repeat app bits_to_int pext]. rewrite !bits_odd, !bits_div. rewrite ?bits_odd, ?bits_div. cbn [repeat] in IH. now rewrite IH.
Qed.
Lemma ym_to_int_ok w m : width_ok w -> length m = (32 / w)%nat -> ym_to_int w (ymask_reg w m) = to_int_spec m.
Proof.
  intros Hw L. rewrite <- bits_int. unfold ym_to_int, ymovemask. by_width Hw.
  - rewrite ysign_bytes by (unfold width_ok; auto). rewrite <- (pext_double m). rewrite L.
    assert (E : flat_map (fun _ : bool => [true; false]) m = concat (repeat [true; false] 16)).
    { change (32 / 2)%nat with 16%nat in L. rewrite <- L. clear L. induction m as [|b m IH]; cbn; auto. now rewrite IH. }
    rewrite E. reflexivity.
  - now rewrite ysign_lanes by (unfold width_ok; auto).
  - now rewrite ysign_lanes by (unfold width_ok; auto).
Qed.

(** queries *)
Lemma ym_full_ok w m : width_ok w -> length m = (32 / w)%nat -> ym_full w (ymask_reg w m) = forallb (fun b => b) m.
Proof.
  intros Hw L. unfold ym_full, ytestc. by_width Hw.
  - destruct (ymask_split 2 m (or_introl eq_refl) L) as (l & h & -> & Ll & Lh & ->). cbn [lo128 hi128 yallone]. rewrite forallb_app.
    pose proof (m_full_ok true 2 l (or_introl eq_refl) Ll) as A. pose proof (m_full_ok true 2 h (or_introl eq_refl) Lh) as B.
    unfold m_full, testc in A, B. now rewrite A, B.
  - revert m L. apply bool_check. vm_compute. reflexivity.
  - revert m L. apply bool_check. vm_compute. reflexivity.
Qed.
Lemma ym_empty_ok w m : width_ok w -> length m = (32 / w)%nat -> ym_empty w (ymask_reg w m) = forallb negb m.
Proof.
  intros Hw L. unfold ym_empty, ytestz. by_width Hw.
  - destruct (ymask_split 2 m (or_introl eq_refl) L) as (l & h & -> & Ll & Lh & ->). cbn [lo128 hi128 yallone]. rewrite forallb_app.
    pose proof (m_empty_ok true 2 l (or_introl eq_refl) Ll) as A. pose proof (m_empty_ok true 2 h (or_introl eq_refl) Lh) as B.
    unfold m_empty, testz in A, B. now rewrite A, B.
  - revert m L. apply bool_check. vm_compute. reflexivity.
  - revert m L. apply bool_check. vm_compute. reflexivity.
Qed.
Lemma ytestz_allone w m : width_ok w -> length m = (32 / w)%nat -> ytestz w (ymask_reg w m) yallone = forallb negb m.
Proof.
  intros Hw L. unfold ytestz. by_width Hw.
  - destruct (ymask_split 2 m (or_introl eq_refl) L) as (l & h & -> & Ll & Lh & ->). cbn [lo128 hi128 yallone]. rewrite forallb_app.
    clear L. f_equal; [revert l Ll|revert h Lh]; apply bool_check; vm_compute; reflexivity.
  - revert m L. apply bool_check. vm_compute. reflexivity.
  - revert m L. apply bool_check. vm_compute. reflexivity.
Qed.
Lemma ym_mix_ok w m : width_ok w -> length m = (32 / w)%nat ->
  ym_mix w (ymask_reg w m) = negb (forallb negb m) && negb (forallb (fun b => b) m).
Proof.
  intros Hw L. unfold ym_mix, ytestnzc. rewrite ytestz_allone by auto. pose proof (ym_full_ok w m Hw L) as F.
  unfold ym_full in F. now rewrite F.
Qed.
Lemma width_len w : width_ok w -> In (32 / w)%nat [4; 8; 16]%nat.
Proof. intros Hw. by_width Hw; cbn; auto. Qed.
Lemma popcnt_bits : forall m k, (length m <= k)%nat -> popcnt k (bits_to_int m) = count_spec m.
Proof.
  induction m as [|b m IH]; intros k Hk; [apply popcnt_zero|]. destruct k as [|k]; cbn [length] in Hk; [lia|].
  cbn [popcnt bits_to_int count_spec]. rewrite bits_div, IH by lia. f_equal. rewrite Zmod_odd, bits_odd. reflexivity.
Qed.
Lemma bits_bound m : 0 <= bits_to_int m < 2 ^ Z.of_nat (length m).
Proof.
  induction m as [|b m IH]; [cbn; lia|]. cbn [bits_to_int length]. rewrite Nat2Z.inj_succ, Z.pow_succ_r by lia. destruct b; cbn [Z.b2z]; lia.
Qed.
Lemma popcnt_to_int hw n m : In n [4; 8; 16]%nat -> length m = n -> popcnt16 hw (to_int_spec m) = count_spec m.
Proof.
  intros Hn L. rewrite <- bits_int.
  assert (Q : (length m <= 16)%nat) by (subst n; destruct Hn as [<-|[<-|[<-|[]]]]; lia).
  assert (E : popcnt16 hw (bits_to_int m) = mm_popcnt_u32 (bits_to_int m)).
  { destruct hw; [reflexivity|]. apply popcnt16_ok. pose proof (bits_bound m).
    assert (2 ^ Z.of_nat (length m) <= 2 ^ 16) by (apply Z.pow_le_mono_r; lia). lia. }
  rewrite E. apply popcnt_bits. lia.
Qed.
Lemma ym_count_ok hw w m : width_ok w -> length m = (32 / w)%nat -> ym_count hw w (ymask_reg w m) = count_spec m.
Proof. intros Hw L. unfold ym_count. rewrite ym_to_int_ok by auto. apply (popcnt_to_int hw (32 / w)); auto using width_len. Qed.
Lemma first_to_int n m : In n [4; 8; 16]%nat -> length m = n ->
  (if to_int_spec m =? 0 then None else Some (ctz 32 (to_int_spec m))) = first_idx m.
Proof.
  intros Hn L. apply optz_eqb_eq. destruct Hn as [<-|[<-|[<-|[]]]]; revert m L;
    apply (mask_check (fun m => optz_eqb (if to_int_spec m =? 0 then None else Some (ctz 32 (to_int_spec m))) (first_idx m))); vm_compute; reflexivity.
Qed.
Lemma ym_first_ok w m : width_ok w -> length m = (32 / w)%nat ->
  match ym_first w (ymask_reg w m) with
  | Some i => 0 <= i < Z.of_nat (length m) /\ first_one_spec m i
  | None => none_spec m end.
Proof.
  intros Hw L. unfold ym_first. rewrite ym_to_int_ok by auto. cbn zeta.
  rewrite (first_to_int (32 / w)) by auto using width_len. apply first_idx_spec.
Qed.
Lemma bits_testbit : forall m i, Z.testbit (bits_to_int m) (Z.of_nat i) = nth i m false.
Proof.
  induction m as [|b m IH]; intros i; [cbn [bits_to_int]; rewrite Z.bits_0; now destruct i|]. cbn [bits_to_int]. destruct i as [|i].
  - change (Z.of_nat 0) with 0. rewrite Z.bit0_odd. cbn [nth]. apply bits_odd.
  - rewrite Nat2Z.inj_succ. rewrite <- (Z.div2_bits _ (Z.of_nat i)) by lia. rewrite bits_div. apply IH.
Qed.
Lemma land_bit z i : 0 <= i -> negb (Z.land z (Z.shiftl 1 i) =? 0) = Z.testbit z i.
Proof.
  intros H. rewrite Z.shiftl_1_l. destruct (Z.testbit z i) eqn:E.
  - destruct (Z.eqb_spec (Z.land z (2 ^ i)) 0) as [Q|Q]; auto. apply (f_equal (fun v => Z.testbit v i)) in Q.
    rewrite Z.land_spec, E, Z.pow2_bits_true, Z.bits_0 in Q by lia. discriminate Q.
  - destruct (Z.eqb_spec (Z.land z (2 ^ i)) 0) as [Q|Q]; auto. exfalso. apply Q. apply Z.bits_inj. intros j. rewrite Z.land_spec, Z.bits_0.
    destruct (Z.eqb_spec j i) as [->|N]; [now rewrite E|]. rewrite Z.pow2_bits_false by auto. apply andb_false_r.
Qed.
Lemma nth_double : forall (m : list bool) i, nth (2 * i) (flat_map (fun b => repeat b 2) m) false = nth i m false.
Proof.
  induction m as [|b m IH]; intros i; [destruct i; reflexivity|]. destruct i as [|i]; [reflexivity|].
  replace (2 * S i)%nat with (S (S (2 * i))) by lia. cbn [flat_map repeat app nth]. apply IH.
Qed.
Lemma znth_nth_in {A} (d : A) xs i : 0 <= i < Z.of_nat (length xs) -> znth d xs i = nth (Z.to_nat i) xs d.
Proof.
  intros H. unfold znth. destruct (Z.leb_spec 0 i), (Z.ltb_spec i (Z.of_nat (length xs))); cbn; auto; lia.
Qed.
Lemma ym_get_ok w m i : width_ok w -> length m = (32 / w)%nat -> 0 <= i < Z.of_nat (32 / w) -> ym_get w (ymask_reg w m) i = znth false m i.
Proof.
  intros Hw L Hi. rewrite znth_nth_in by (rewrite L; exact Hi). unfold ym_get. by_width Hw.
  - unfold ym_shift_mask, ymovemask. rewrite ysign_bytes by (unfold width_ok; auto). rewrite land_bit by lia.
    rewrite <- nth_double, <- bits_testbit. f_equal. lia.
  - rewrite ym_to_int_ok, <- bits_int, land_bit by (unfold width_ok; auto; lia). rewrite <- bits_testbit. f_equal. lia.
  - rewrite ym_to_int_ok, <- bits_int, land_bit by (unfold width_ok; auto; lia). rewrite <- bits_testbit. f_equal. lia.
Qed.
Lemma ym_eq_ok e a b : length a = (32 / esize e)%nat -> length b = (32 / esize e)%nat ->
  (ym_eq e (ymask_reg (esize e) a) (ymask_reg (esize e) b) = true <-> a = b).
Proof.
  intros La Lb. assert (Hw : width_ok (esize e)) by (unfold width_ok; destruct e; cbn; auto).
  split; [|intros ->; unfold ym_eq; destruct e; apply Z.eqb_refl].
  intros H.
  assert (G : forall u, map negative (ylanes u (ymask_reg (esize e) a)) = map negative (ylanes u (ymask_reg (esize e) b)) -> (u = esize e \/ u = 1%nat) -> a = b).
  { intros u E [->| ->].
    - now rewrite !ysign_lanes in E by auto.
    - rewrite !ysign_bytes in E by auto. apply flat_repeat_inj in E; auto; [destruct e; cbn; lia|congruence]. }
  assert (K : exists u, (u = esize e \/ u = 1%nat) /\ ymovemask u (ymask_reg (esize e) a) = ymovemask u (ymask_reg (esize e) b)).
  { destruct e; cbn [ym_eq] in H; apply Z.eqb_eq in H; eexists; (split; [|exact H]); auto. }
  destruct K as (u & Hu & E). unfold ymovemask in E. apply bits_to_int_inj in E; [now apply (G u)|].
  rewrite !map_length, !ylanes_halves, !app_length, !lanes_length. reflexivity.
Qed.

Lemma esize_width e : width_ok (esize e).
Proof. unfold width_ok; destruct e; cbn; auto. Qed.
Lemma avx_masks ptest hw avx2 e : native_masks_ok (avx_widths_of avx2 e) (avx_mask_ops ptest hw e).
Proof.
  pose proof (esize_width e) as Hw.
  assert (C : forall m : list bool, avx_widths_of avx2 e (length m) = true ->
    (Nat.eqb (length m) (32 / esize e) = true /\ length m = (32 / esize e)%nat) \/
    (Nat.eqb (length m) (32 / esize e) = false /\ sse_native (esize e) (length m) = true)).
  { intros m H. unfold avx_widths_of in H. unfold avx_native in H. destruct (has256 avx2 e).
    - destruct (Nat.eqb_spec (length m) (32 / esize e)); [now left|right]. split; auto. now rewrite orb_false_r in H.
    - destruct (Nat.eqb_spec (length m) (32 / esize e)) as [E|]; [now left|now right]. }
  pose proof (sse_masks ptest hw (esize e) Hw) as [s1 s2 s3 s4 s5 s6 s7 s8].
  split; intros m; [..|intros m'|intros m']; intros H; destruct (C m H) as [[E L]|[E S]];
    cbn [k_full k_not_empty k_empty k_to_int k_count k_first k_eq k_neq avx_mask_ops]; rewrite E; auto.
  - rewrite ym_full_ok by auto. apply forallb_all.
  - unfold ym_not_empty. pose proof (ym_empty_ok (esize e) m Hw L) as Q. unfold ym_empty in Q. rewrite Q.
    rewrite <- forallb_none. destruct (forallb negb m); cbn; split; intros; congruence.
  - rewrite ym_empty_ok by auto. apply forallb_none.
  - now apply ym_to_int_ok.
  - now apply ym_count_ok.
  - intros HN. pose proof (ym_first_ok (esize e) m Hw L) as F. destruct (ym_first (esize e) (ymask_reg (esize e) m)); [apply F|contradiction].
  - intros LL. apply ym_eq_ok; auto. now rewrite <- LL.
  - intros LL. unfold ym_neq. rewrite <- (ym_eq_ok e m m') by (auto; now rewrite <- LL). destruct (ym_eq _ _ _); cbn; split; intros; congruence.
Qed.

(** logic *)
Lemma ym_not_ok w m : width_ok w -> length m = (32 / w)%nat -> ym_not (ymask_reg w m) = ymask_reg w (map negb m).
Proof.
  intros Hw L. destruct (ymask_split w m Hw L) as (l & h & -> & Ll & Lh & ->). unfold ym_not, ymap2, yallone. cbn [lo128 hi128].
  pose proof (m_not_ok w l Hw Ll) as A. pose proof (m_not_ok w h Hw Lh) as B. unfold m_not in A, B. rewrite A, B.
  rewrite map_app, ymask_app by now rewrite map_length. reflexivity.
Qed.
Lemma map2_app {X Y Z} (f : X -> Y -> Z) : forall a b c d, length a = length b -> map2 f (a ++ c) (b ++ d) = map2 f a b ++ map2 f c d.
Proof. induction a as [|x a IH]; intros [|y b] c d L; cbn in *; try discriminate L; auto. rewrite IH; auto. Qed.
Lemma ym_logic w f g a b : width_ok w -> length a = (32 / w)%nat -> length b = (32 / w)%nat ->
  (forall x y, length x = length y -> f (mask_reg w x) (mask_reg w y) = mask_reg w (map2 g x y)) ->
  ymap2 f (ymask_reg w a) (ymask_reg w b) = ymask_reg w (map2 g a b).
Proof.
  intros Hw La Lb H. destruct (ymask_split w a Hw La) as (l & h & -> & Ll & Lh & ->). destruct (ymask_split w b Hw Lb) as (l' & h' & -> & Ll' & Lh' & ->).
  unfold ymap2. cbn [lo128 hi128]. rewrite !H by congruence. rewrite map2_app by congruence.
  rewrite ymask_app; [reflexivity|]. rewrite SseIntP.map2_length, Ll, Ll'. apply Nat.min_id.
Qed.
Lemma ym_and_ok w a b : width_ok w -> length a = (32 / w)%nat -> length b = (32 / w)%nat -> ym_and (ymask_reg w a) (ymask_reg w b) = ymask_reg w (map2 andb a b).
Proof. intros. apply ym_logic; auto. apply m_and_ok. Qed.
Lemma ym_or_ok w a b : width_ok w -> length a = (32 / w)%nat -> length b = (32 / w)%nat -> ym_or (ymask_reg w a) (ymask_reg w b) = ymask_reg w (map2 orb a b).
Proof. intros. apply ym_logic; auto. apply m_or_ok. Qed.
Lemma ym_xor_ok w a b : width_ok w -> length a = (32 / w)%nat -> length b = (32 / w)%nat -> ym_xor (ymask_reg w a) (ymask_reg w b) = ymask_reg w (map2 xorb a b).
Proof. intros. apply ym_logic; auto. apply m_xor_ok. Qed.

(** entries *)
Lemma ylanes_ypack w (xs : list (word w)) : width_ok w -> length xs = (32 / w)%nat -> ylanes w (ypack xs) = xs.
Proof.
  intros Hw L. destruct (split_halves xs Hw L) as (l & h & -> & Ll & Lh & ->). rewrite ylanes_halves. cbn [lo128 hi128].
  now rewrite !lanes_pack.
Qed.
Lemma ym_set_ok w m i v : width_ok w -> length m = (32 / w)%nat -> ym_set w (ymask_reg w m) i v = ymask_reg w (list_set m (Z.to_nat i) v).
Proof.
  intros Hw L. unfold ym_set, ymask_reg. rewrite ylanes_ypack by (auto; now rewrite map_length). now rewrite list_set_map.
Qed.
Lemma ym_generate_ok w gen : ym_generate w gen = ymask_reg w (tab (32 / w) gen).
Proof. unfold ym_generate, ymask_reg, tab. now rewrite map_map. Qed.
Lemma ym_broadcast_ok w b : width_ok w -> ym_broadcast b = ymask_reg w (repeat b (32 / w)).
Proof. intros Hw. by_width Hw; destruct b; vm_compute; reflexivity. Qed.

(** shifted *)
Section Shift.
  Context {B : Type} (b0 : B).
  Lemma avx_shifted_reg w l h k : width_ok w -> lanes_ok w l -> lanes_ok w h ->
    let s := shift_spec (repeat b0 w) (l ++ h) k in
    avx_shifted b0 (repeat b0 16) w (yconcat l h) k = yconcat (firstn (16 / w) s) (skipn (16 / w) s).
  Proof.
    intros Hw Hl Hh. cbn zeta. destruct (Z_le_gt_dec (-15) k) as [H1|H1]; [destruct (Z_le_gt_dec k 15) as [H2|H2]|].
    2, 3: unfold avx_shifted, shift_spec; destruct (Z.eqb_spec k 0); [lia|];
      match goal with |- context [?x && ?y] => assert (x && y = false) as -> by
        (destruct Hw as [->|[->| ->]]; [destruct (Z.leb_spec (- (15)) k), (Z.leb_spec k 15)|destruct (Z.leb_spec (- (7)) k), (Z.leb_spec k 7)|destruct (Z.leb_spec (- (3)) k), (Z.leb_spec k 3)]; try reflexivity; lia) end;
      rewrite (tab_const _ _ (repeat b0 w));
      [rewrite app_length; destruct Hl as [-> _], Hh as [-> _]; destruct Hw as [->|[->| ->]]; reflexivity
      |intros i Hi; apply znth_out; rewrite app_length in *; destruct Hl as [Hl _], Hh as [Hh _]; rewrite Hl, Hh in *; destruct Hw as [->|[->| ->]]; sz; lia].
    destruct Hw as [->|[->| ->]]; explode l; explode h; zrange k (-15) 15; reflexivity.
  Qed.
End Shift.
Lemma enc_false w : width_ok w -> repeat 0 w = enc (wmask w false).
Proof. intros Hw. by_width Hw; reflexivity. Qed.
Lemma mask_lanes_ok w l : width_ok w -> length l = (16 / w)%nat -> lanes_ok w (map enc (map (wmask w) l)).
Proof.
  intros Hw L. split; [now rewrite !map_length|]. rewrite Forall_forall. intros x Hx. apply in_map_iff in Hx.
  destruct Hx as (y & <- & _). apply enc_length.
Qed.
Lemma ym_shifted_ok w m k : width_ok w -> length m = (32 / w)%nat -> - 2 ^ 31 <= k * Z.of_nat w < 2 ^ 31 ->
  ym_shifted (repeat 0 16) w (ymask_reg w m) k = Some (ymask_reg w (shift_spec false m k)).
Proof.
  intros Hw L Hk.
  assert (E : ym_shifted (repeat 0 16) w (ymask_reg w m) k = Some (avx_shifted 0 (repeat 0 16) w (ymask_reg w m) k)).
  { unfold ym_shifted, avx_shifted. destruct (Z.ltb_spec (k * Z.of_nat w) (- 2 ^ 31)); [lia|]. destruct (Z.leb_spec (2 ^ 31) (k * Z.of_nat w)); [lia|].
    cbn [orb]. by_width Hw; cbn [Z.of_nat Pos.of_succ_nat Pos.succ].
    all: destruct (Z.eqb_spec k 0) as [->|N]; [reflexivity|].
    all: match goal with |- context [?kk * ?c =? 0] => destruct (Z.eqb_spec (kk * c) 0); [lia|] end.
    all: match goal with |- (if ?a && ?b then _ else _) = Some (if ?c && ?d then _ else _) => assert (a && b = c && d) as -> end.
    all: try (match goal with |- (if ?c then _ else _) = _ => destruct c; reflexivity end).
    all: match goal with |- (?a <=? ?b) && (?b <=? ?c) = (?d <=? ?kk) && (?kk <=? ?f) => destruct (Z.leb_spec a b), (Z.leb_spec b c), (Z.leb_spec d kk), (Z.leb_spec kk f); cbn; auto; lia end. }
  rewrite E. f_equal. destruct (ymask_split w m Hw L) as (l & h & -> & Ll & Lh & ->).
  change (Ymm (mask_reg w l) (mask_reg w h)) with (yconcat (map enc (map (wmask w) l)) (map enc (map (wmask w) h))).
  rewrite (avx_shifted_reg 0 w) by auto using mask_lanes_ok. rewrite <- map_app, <- map_app, enc_false by auto.
  rewrite <- map_shift_spec, <- map_shift_spec. unfold ymask_reg. rewrite ypack_halves, (firstn_map enc), (skipn_map enc). reflexivity.
Qed.

(** memory *)
Definition yreg_eqb (a b : yreg) : bool := zlist_eqb (lo128 a) (lo128 b) && zlist_eqb (hi128 a) (hi128 b).
Lemma yreg_eqb_eq a b : yreg_eqb a b = true -> a = b.
Proof. destruct a as [al ah], b as [bl bh]. unfold yreg_eqb. cbn [lo128 hi128]. intros H. apply andb_prop in H. destruct H as [H1 H2].
  apply zlist_eqb_eq in H1, H2. now subst. Qed.
Lemma pack_app w (a b : list (word w)) : pack (a ++ b) = pack a ++ pack b.
Proof. unfold pack, to_reg. now rewrite map_app, concat_app. Qed.
Lemma packs16_masks l h : length l = 8%nat -> length h = 8%nat -> packs_epi16 (mask_reg 2 l) (mask_reg 2 h) = pack (map (wmask 1) (l ++ h)).
Proof.
  intros Ll Lh. unfold packs_epi16, mask_reg. rewrite !lanes_pack by (rewrite map_length; assumption).
  rewrite <- map_app, map_map. f_equal. apply map_ext. intros b. destruct b; apply word_ext; reflexivity.
Qed.
Lemma ym_store_ok w m : width_ok w -> length m = (32 / w)%nat -> ym_store w (ymask_reg w m) = map Z.b2z m.
Proof.
  intros Hw L. by_width Hw.
  - destruct (ymask_split 2 m (or_introl eq_refl) L) as (l & h & -> & Ll & Lh & ->). unfold ym_store. cbn [lo128 hi128].
    rewrite packs16_masks by assumption. rewrite !map_app, pack_app.
    change (16 / 2)%nat with 8%nat in *. clear L.
    assert (G : forall l, length l = 8%nat -> map2 Z.land (repeat 1 8) (pack (map (wmask 1) l)) = map Z.b2z l) by (apply zl_check; vm_compute; reflexivity).
    unfold mm_and. change (set1 1 1) with (repeat 1 8 ++ repeat 1 8).
    rewrite map2_app by (rewrite pack_length, map_length, Ll; reflexivity). now rewrite !G.
  - revert m L. apply zl_check. vm_compute. reflexivity.
  - revert m L. apply zl_check. vm_compute. reflexivity.
Qed.
Lemma ycheck (f g : list bool -> yreg) n :
  forallb (fun m => yreg_eqb (f m) (g m)) (all_masks n) = true -> forall m, length m = n -> f m = g m.
Proof. intros H m L. apply yreg_eqb_eq. now apply (mask_check (fun m => yreg_eqb (f m) (g m)) n). Qed.
Lemma ym_load_ok w m : width_ok w -> length m = (32 / w)%nat -> ym_load w (map Z.b2z m) = ymask_reg w m.
Proof.
  intros Hw L. by_width Hw.
  - unfold ym_load.
    assert (E : map Z.b2z m = pack (map (fun b => mkw 1 (Z.b2z b)) m)).
    { unfold pack, to_reg. clear L. induction m as [|b m IH]; [reflexivity|]. cbn [map concat]. rewrite <- IH. now destruct b. }
    rewrite E. clear E. change (32 / 2)%nat with 16%nat in L.
    assert (E : cmpgt_epi 1 (pack (map (fun b => mkw 1 (Z.b2z b)) m)) mm_setzero = pack (map (wmask 1) m)).
    { unfold cmpgt_epi. change mm_setzero with (pack (repeat (w0 1) 16)). rewrite lift2_pack by (rewrite ?map_length, ?repeat_length; first [assumption|reflexivity|unfold lane_ok; auto]).
      f_equal. rewrite map2_repeat_r by now rewrite map_length. rewrite map_map. apply map_ext. intros b. now destruct b. }
    rewrite E. clear E. unfold ymask_reg. rewrite ypack_halves. change (16 / 2)%nat with 8%nat.
    assert (G : forall b, enc (wmask 2 b) = enc (wmask 1 b) ++ enc (wmask 1 b)) by (intros []; reflexivity).
    do 16 (destruct m as [|? m]; [discriminate L|]). destruct m; [|discriminate L].
    cbn [map firstn skipn]. unfold pack, to_reg. cbn [map concat]. rewrite !G.
    assert (S1 : forall c, exists z, enc (wmask 1 c) = [z]) by (intros; eexists; reflexivity).
    repeat match goal with |- context [enc (wmask 1 ?b)] => destruct (S1 b) as [? ->] end. reflexivity.
  - revert m L. apply (ycheck _ (ymask_reg 4)). vm_compute. reflexivity.
  - revert m L. apply (ycheck _ (ymask_reg 8)). vm_compute. reflexivity.
Qed.

(** conversions *)
Definition opt_yreg_eqb (a b : option yreg) : bool := match a, b with Some x, Some y => yreg_eqb x y | None, None => true | _, _ => false end.
Lemma opt_yreg_eqb_eq a b : opt_yreg_eqb a b = true -> a = b.
Proof. destruct a, b; cbn; intros H; try discriminate H; auto. apply yreg_eqb_eq in H. now subst. Qed.
Lemma cast_firstn n l h : (n <= length l)%nat -> cast_spec n (l ++ h) = cast_spec n l.
Proof.
  intros H. unfold cast_spec. apply tab_ext. intros i Hi. rewrite !znth_nth_in by (rewrite ?app_length; lia).
  apply app_nth1. lia.
Qed.
Lemma ymask_cast_narrow to hi l : In to [4; 8]%nat -> length hi = 16%nat -> length l = 8%nat ->
  ymask_cast (repeat 0 16) 16 to (Ymm (mask_reg 2 l) hi) = Some (ymask_reg (32 / to) (cast_spec to l)).
Proof.
  intros Ht Lh Ll. do 16 (destruct hi as [|? hi]; [discriminate Lh|]). destruct hi; [|discriminate Lh]. clear Lh.
  apply opt_yreg_eqb_eq. destruct Ht as [<-|[<-|[]]]; revert l Ll.
  - apply (mask_check (fun l => opt_yreg_eqb (ymask_cast _ 16 4 (Ymm (mask_reg 2 l) _)) (Some (ymask_reg (32 / 4) (cast_spec 4 l)))) 8). vm_compute. reflexivity.
  - apply (mask_check (fun l => opt_yreg_eqb (ymask_cast _ 16 8 (Ymm (mask_reg 2 l) _)) (Some (ymask_reg (32 / 8) (cast_spec 8 l)))) 8). vm_compute. reflexivity.
Qed.
Lemma cast_self m : cast_spec (length m) m = m.
Proof. apply tab_znth. Qed.
Lemma ymask_cast_ok from to m : In from [4; 8; 16]%nat -> In to [4; 8; 16]%nat -> length m = from ->
  ymask_cast (repeat 0 16) from to (ymask_reg (32 / from) m) = Some (ymask_reg (32 / to) (cast_spec to m)).
Proof.
  intros Hf Ht L. cbn [In] in Hf, Ht.
  destruct (Nat.eq_dec from 16) as [->|N].
  - destruct (Nat.eq_dec to 16) as [->|N'].
    + assert (Q : cast_spec 16 m = m) by (rewrite <- L; apply cast_self). rewrite Q. reflexivity.
    + destruct (ymask_split 2 m (or_introl eq_refl) L) as (l & h & -> & Ll & Lh & E). change (32 / 16)%nat with 2%nat. rewrite E.
      change (16 / 2)%nat with 8%nat in *. rewrite cast_firstn by (destruct Ht as [<-|[<-|[<-|[]]]]; lia).
      apply ymask_cast_narrow; auto.
      * destruct Ht as [<-|[<-|[<-|[]]]]; cbn; auto; lia.
      * unfold mask_reg. rewrite pack_length, map_length, Lh. reflexivity.
  - apply opt_yreg_eqb_eq.
    destruct Hf as [<-|[<-|[<-|[]]]], Ht as [<-|[<-|[<-|[]]]]; try lia;
    match goal with |- opt_yreg_eqb (ymask_cast _ ?a ?b _) _ = _ => revert m L;
    apply (mask_check (fun m => opt_yreg_eqb (ymask_cast (repeat 0 16) a b (ymask_reg (32 / a) m)) (Some (ymask_reg (32 / b) (cast_spec b m)))) a) end; vm_compute; reflexivity.
Qed.
Lemma ymask_cast_128_ok from to m : In from [4; 8]%nat -> In to [4; 8]%nat -> length m = from ->
  ymask_cast_128 from to (ymask_reg (32 / from) m) = Some (mask_reg (16 / to) (cast_spec to m)).
Proof.
  intros Hf Ht L. cbn [In] in Hf, Ht. apply opt_zl_eqb_eq.
  destruct Hf as [<-|[<-|[]]], Ht as [<-|[<-|[]]];
  match goal with |- opt_zl_eqb (ymask_cast_128 ?a ?b _) _ = _ => revert m L;
  apply (mask_check (fun m => opt_zl_eqb (ymask_cast_128 a b (ymask_reg (32 / a) m)) (Some (mask_reg (16 / b) (cast_spec b m)))) a) end; vm_compute; reflexivity.
Qed.
Lemma mask_cast_256_ok from to m : In from [4; 8]%nat -> In to [4; 8]%nat -> length m = from ->
  mask_cast_256 (repeat 0 16) from to (mask_reg (16 / from) m) = Some (ymask_reg (32 / to) (cast_spec to m)).
Proof.
  intros Hf Ht L. cbn [In] in Hf, Ht. apply opt_yreg_eqb_eq.
  destruct Hf as [<-|[<-|[]]], Ht as [<-|[<-|[]]];
  match goal with |- opt_yreg_eqb (mask_cast_256 _ ?a ?b _) _ = _ => revert m L;
  apply (mask_check (fun m => opt_yreg_eqb (mask_cast_256 (repeat 0 16) a b (mask_reg (16 / a) m)) (Some (ymask_reg (32 / b) (cast_spec b m)))) a) end; vm_compute; reflexivity.
Qed.
