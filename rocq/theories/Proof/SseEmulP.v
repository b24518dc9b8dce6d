From Coq Require Import ZArith List Bool Lia.
From Verif.Spec Require Import VectorSpec Seq.
From Verif.Model Require Import Word SseReg SseMove SseInt.
From Verif.Proof Require Import SeqP WordP SortNetP SseIntP.
Import ListNotations.
Local Open Scope Z_scope.

Lemma lane_pack w : forall (xs : list (word w)) i, (i < length xs)%nat -> lane w (pack xs) i = enc (nth i xs (w0 w)).
Proof.
  unfold lane, pack, to_reg. induction xs as [|x xs IH]; intros i H; cbn [length] in H; [lia|].
  cbn [map concat]. destruct i as [|i].
  - rewrite Nat.mul_0_r, skipn_O. rewrite firstn_app, enc_length, Nat.sub_diag, firstn_O, app_nil_r.
    apply firstn_all2. rewrite enc_length. lia.
  - rewrite skipn_app, enc_length. rewrite skipn_all2 by (rewrite enc_length; lia).
    replace (w * S i - w)%nat with (w * i)%nat by lia. cbn [app nth]. apply IH. lia.
Qed.

Lemma flat_map_nth2 {X Y Z} (dx : X) (dy : Y) (g : X -> Y -> list Z) : forall k xs ys off,
  (off + k <= length xs)%nat -> (off + k <= length ys)%nat ->
  flat_map (fun i => g (nth i xs dx) (nth i ys dy)) (seq off k) = concat (map2 g (firstn k (skipn off xs)) (firstn k (skipn off ys))).
Proof.
  induction k as [|k IH]; intros xs ys off Hx Hy; cbn [seq flat_map firstn]; auto.
  rewrite IH by lia.
  assert (Ex : skipn off xs = nth off xs dx :: skipn (S off) xs).
  { clear - Hx. revert off Hx. induction xs as [|x xs IHx]; intros [|off] H; cbn [length] in H; try lia; auto. cbn [skipn nth]. rewrite IHx by lia. reflexivity. }
  assert (Ey : skipn off ys = nth off ys dy :: skipn (S off) ys).
  { clear - Hy. revert off Hy. induction ys as [|y ys IHy]; intros [|off] H; cbn [length] in H; try lia; auto. cbn [skipn nth]. rewrite IHy by lia. reflexivity. }
  now rewrite Ex, Ey.
Qed.
Lemma flat_map_ext_in {X Y} (f g : X -> list Y) l : (forall x, In x l -> f x = g x) -> flat_map f l = flat_map g l.
Proof. induction l; cbn; intros H; auto. rewrite IHl by (intros; apply H; now right). rewrite (H a (or_introl eq_refl)). reflexivity. Qed.

Lemma half_lanes w : lane_ok w -> (8 / w + 8 / w = 16 / w)%nat.
Proof. intros [->|[->|[->| ->]]]; reflexivity. Qed.

Lemma unpacklo_pack w (xs ys : list (word w)) : lane_ok w -> length xs = (16 / w)%nat -> length ys = (16 / w)%nat ->
  unpacklo 8 w (pack xs) (pack ys) = concat (map2 (fun x y => enc x ++ enc y) (firstn (8 / w) xs) (firstn (8 / w) ys)).
Proof.
  intros Hw Hx Hy. pose proof (half_lanes w Hw). unfold unpacklo.
  rewrite (flat_map_ext_in _ (fun i => (fun x y => enc x ++ enc y) (nth i xs (w0 w)) (nth i ys (w0 w)))).
  - rewrite (flat_map_nth2 (w0 w) (w0 w) (fun x y => enc x ++ enc y)) by lia. reflexivity.
  - intros i Hi. apply in_seq in Hi. now rewrite !lane_pack by lia.
Qed.
Lemma unpackhi_pack w (xs ys : list (word w)) : lane_ok w -> length xs = (16 / w)%nat -> length ys = (16 / w)%nat ->
  unpackhi 8 w (pack xs) (pack ys) = concat (map2 (fun x y => enc x ++ enc y) (skipn (8 / w) xs) (skipn (8 / w) ys)).
Proof.
  intros Hw Hx Hy. pose proof (half_lanes w Hw). unfold unpackhi.
  rewrite (flat_map_ext_in _ (fun i => (fun x y => enc x ++ enc y) (nth i xs (w0 w)) (nth i ys (w0 w)))).
  - rewrite (flat_map_nth2 (w0 w) (w0 w) (fun x y => enc x ++ enc y)) by lia.
    rewrite !firstn_all2 by (rewrite skipn_length; lia). reflexivity.
  - intros i Hi. apply in_seq in Hi. now rewrite !lane_pack by lia.
Qed.

(** * widening *)
Lemma bytes_add a : forall b z, bytes (a + b) z = bytes a z ++ bytes b (z / modulus a).
Proof.
  induction a as [|a IH]; intros b z; cbn [bytes Nat.add app].
  - now rewrite Z.div_1_r.
  - rewrite IH, modulus_S. pose proof (modulus_pos a). rewrite Z.div_div by lia. reflexivity.
Qed.
Lemma enc_wide w z : enc (mkw (2 * w) z) = bytes w z ++ bytes w (z / modulus w).
Proof. rewrite enc_mkw. replace (2 * w)%nat with (w + w)%nat by lia. apply bytes_add. Qed.
Lemma enc_wide_u w (x : word w) : enc (mkw (2 * w) (uval x)) = enc x ++ enc (w0 w).
Proof.
  rewrite enc_wide. f_equal. rewrite Z.div_small by apply uval_range. rewrite enc_w0. apply bytes_0.
Qed.
Lemma bytes_sval w (x : word w) : bytes w (sval x) = enc x.
Proof. rewrite <- bytes_mod, sval_mod. reflexivity. Qed.
Lemma sval_div w (x : word w) : (0 < w)%nat -> sval x / modulus w = if sval x <? 0 then -1 else 0.
Proof.
  intros H. pose proof (sval_range x H). pose proof (modulus_even w H). pose proof (modulus_pos w).
  destruct (Z.ltb_spec (sval x) 0).
  - symmetry. apply Z.div_unique with (r := sval x + modulus w); lia.
  - apply Z.div_small. lia.
Qed.
Lemma enc_wide_s w (x : word w) : (0 < w)%nat -> enc (mkw (2 * w) (sval x)) = enc x ++ enc (wmask w (sval x <? 0)).
Proof.
  intros H. rewrite enc_wide, bytes_sval, sval_div by auto. f_equal. rewrite enc_wmask.
  destruct (sval x <? 0); [apply bytes_m1|apply bytes_0].
Qed.
Lemma concat_map2_enc {w v} (g : word w -> word v) (h : word w -> word w) xs :
  (forall x, enc (g x) = enc x ++ enc (h x)) ->
  concat (map2 (fun x y => enc x ++ enc y) xs (map h xs)) = pack (map g xs).
Proof.
  intros H. unfold pack, to_reg. induction xs as [|x xs IH]; cbn; auto. rewrite IH, H. now rewrite <- app_assoc.
Qed.

Lemma cvtepu_pack sse41 w (xs : list (word w)) : w = 1%nat \/ w = 2%nat \/ w = 4%nat -> length xs = (16 / w)%nat ->
  cvtepu sse41 w (pack xs) = pack (map (fun x => mkw (2 * w) (uval x)) (firstn (8 / w) xs)).
Proof.
  intros Hw3 Hx. assert (Hw : lane_ok w) by (unfold lane_ok; tauto). unfold cvtepu. destruct sse41.
  - unfold mm_cvtepu. now rewrite lanes_pack.
  - rewrite (setzero_pack w Hw). rewrite unpacklo_pack by (rewrite ?repeat_length; auto).
    rewrite <- (map_repeat (fun x => x)). pose proof (half_lanes w Hw).
    rewrite <- (concat_map2_enc _ (fun _ => w0 w)); [|intros; apply enc_wide_u].
    f_equal. f_equal. rewrite map_repeat.
    replace (map (fun _ : word w => w0 w) (firstn (8 / w) xs)) with (repeat (w0 w) (8 / w)).
    + clear - H. generalize (8 / w)%nat (16 / w)%nat H. intros a b <-. rewrite repeat_app, firstn_app, firstn_all2, repeat_length, Nat.sub_diag, firstn_O, app_nil_r; auto. now rewrite repeat_length.
    + assert (L : length (firstn (8 / w) xs) = (8 / w)%nat) by (rewrite firstn_length; lia).
      rewrite <- L at 1. generalize (firstn (8 / w) xs). clear. intros l. induction l; cbn; auto. now rewrite IHl.
Qed.
Lemma cvtepi_pack sse41 w (xs : list (word w)) : w = 1%nat \/ w = 2%nat \/ w = 4%nat -> length xs = (16 / w)%nat ->
  cvtepi sse41 w (pack xs) = pack (map (fun x => mkw (2 * w) (sval x)) (firstn (8 / w) xs)).
Proof.
  intros Hw3 Hx. assert (Hw : lane_ok w) by (unfold lane_ok; tauto). pose proof (lane_ok_pos w Hw). unfold cvtepi. destruct sse41.
  - unfold mm_cvtepi. now rewrite lanes_pack.
  - unfold cmplt_epi. rewrite (setzero_pack w Hw). rewrite lift2_pack by (rewrite ?repeat_length; auto).
    rewrite map2_repeat_r by auto. rewrite unpacklo_pack by (rewrite ?map_length; auto).
    rewrite firstn_map. rewrite (map_ext _ (fun x => wmask w (sval x <? 0))) by (intros; now rewrite sval_w0).
    apply concat_map2_enc. intros. now apply enc_wide_s.
Qed.

(** * immediate blends *)
Definition sel {w} (mask : Z) (i : Z) (x y : word w) : word w := if Z.testbit mask i then y else x.
Lemma odd_div_bit m i : (0 <= m)%Z -> Nat.odd (Z.to_nat m / Nat.pow 2 i) = Z.testbit m (Z.of_nat i).
Proof.
  intros H. rewrite Z.testbit_odd, Z.shiftr_div_pow2 by lia.
  rewrite <- (Z2Nat.id m) at 2 by lia. change 2 with (Z.of_nat 2). rewrite <- Nat2Z.inj_pow, <- Nat2Z.inj_div.
  generalize (Z.to_nat m / 2 ^ i)%nat. clear. intros n.
  rewrite <- Nat.negb_even, <- Z.negb_even. f_equal.
  destruct (Nat.even n) eqn:E.
  - apply Nat.even_spec in E. destruct E as [k ->]. symmetry. apply Z.even_spec. exists (Z.of_nat k). lia.
  - symmetry. apply not_true_is_false. intros Q. apply Z.even_spec in Q. destruct Q as [k Q].
    rewrite <- Nat.negb_odd in E. apply negb_false_iff in E. apply Nat.odd_spec in E. destruct E as [j ->]. lia.
Qed.

Lemma blend_pack w (xs ys : list (word w)) m : 0 <= m -> lane_ok w -> length xs = (16 / w)%nat -> length ys = (16 / w)%nat ->
  blend 8 w (pack xs) (pack ys) (Z.to_nat m) = pack (blend_spec m xs ys).
Proof.
  intros Hm Hw Hx Hy. unfold blend, blend_spec. replace (2 * 8 / w)%nat with (length xs) by (rewrite Hx; reflexivity).
  rewrite (flat_map_ext_in _ (fun i => enc (if Z.testbit m (Z.of_nat i) then nth i ys (w0 w) else nth i xs (w0 w)))).
  2:{ intros i Hi. apply in_seq in Hi. rewrite odd_div_bit by auto. destruct (Z.testbit m (Z.of_nat i)); apply lane_pack; lia. }
  unfold tab. rewrite <- Hx in Hy. clear - Hy.
  assert (G : forall off (p q : list (word w)), length p = off -> length q = off ->
    flat_map (fun i => enc (if Z.testbit m (Z.of_nat i) then nth i (q ++ ys) (w0 w) else nth i (p ++ xs) (w0 w))) (seq off (length xs)) =
    pack (map3 (fun (x y : word w) (b : bool) => if b then y else x) xs ys (map (fun i => Z.testbit m (Z.of_nat i)) (seq off (length xs))))).
  { revert ys Hy. induction xs as [|x xs IH]; intros [|y ys] Hy off p q Hp Hq; cbn [length] in Hy; try discriminate Hy; auto.
    cbn [seq length flat_map map map3]. unfold pack, to_reg in *. cbn [map concat].
    f_equal.
    - rewrite !app_nth2 by lia. rewrite Hp, Hq, Nat.sub_diag. reflexivity.
    - specialize (IH ys ltac:(lia) (S off) (p ++ [x]) (q ++ [y])). rewrite <- !app_assoc in IH. cbn [app] in IH.
      rewrite !app_length in IH. cbn [length] in IH. rewrite <- IH by lia. reflexivity. }
  apply (G 0%nat [] []); reflexivity.
Qed.

Lemma maskblend_pack w (xs ys : list (word w)) m c : length xs = (16 / w)%nat -> length ys = (16 / w)%nat ->
  c = pack (map (wmask w) (tab (16 / w) (Z.testbit m))) ->
  mm_or (mm_andnot c (pack xs)) (mm_and c (pack ys)) = pack (blend_spec m xs ys).
Proof.
  intros Hx Hy ->. unfold blend_spec. rewrite Hx.
  apply (blendv_pack false w xs ys (tab (16 / w) (Z.testbit m))); rewrite ?tab_length; congruence.
Qed.

Fixpoint zlist_eqb (a b : list Z) : bool :=
  match a, b with [], [] => true | x :: a', y :: b' => (x =? y) && zlist_eqb a' b' | _, _ => false end.
Lemma zlist_eqb_eq : forall a b, zlist_eqb a b = true -> a = b.
Proof.
  induction a; intros [|y b] H; cbn in H; try discriminate H; auto. apply andb_prop in H. destruct H as [H1 H2].
  apply Z.eqb_eq in H1. subst. f_equal. auto.
Qed.
Lemma range_check (P : Z -> bool) n : forallb P (tab n (fun z => z)) = true -> forall z, 0 <= z < Z.of_nat n -> P z = true.
Proof.
  intros H z Hz. rewrite forallb_forall in H. apply H. unfold tab. apply in_map_iff. exists (Z.to_nat z).
  split; [lia|]. apply in_seq. lia.
Qed.
Lemma blend_epi16_mask_ok m : 0 <= m < 256 -> blend_epi16_mask m = pack (map (wmask 2) (tab 8 (Z.testbit m))).
Proof.
  intros H. apply zlist_eqb_eq.
  apply (range_check (fun m => zlist_eqb (blend_epi16_mask m) (pack (map (wmask 2) (tab 8 (Z.testbit m))))) 256); [|lia].
  vm_compute. reflexivity.
Qed.

Ltac destruct_list xs H :=
  repeat (let x := fresh "x" in destruct xs as [|x xs]; [try discriminate H|]);
  try (cbn [length] in H; discriminate H).
Ltac explode_to n xs H :=
  match n with
  | O => destruct xs as [|? ?]; [clear H|discriminate H]
  | S ?m => let x := fresh "x" in destruct xs as [|x xs]; [discriminate H|]; apply Nat.succ_inj in H; explode_to m xs H
  end.

Lemma lane_enc_app w (x : word w) r : lane w (enc x ++ r) 0 = enc x.
Proof.
  unfold lane. rewrite Nat.mul_0_r, skipn_O, firstn_app, enc_length, Nat.sub_diag, firstn_O, app_nil_r.
  apply firstn_all2. rewrite enc_length. lia.
Qed.

(** registers with symbolic words: rewriting data movement at byte level into word level *)
Lemma shuffle_epi32_pack (xs : list (word 4)) imm : length xs = 4%nat ->
  shuffle_epi32 8 (pack xs) imm = pack (map (fun j => nth (imm2 imm j) xs (w0 4)) [0; 1; 2; 3]%nat).
Proof.
  intros H. unfold shuffle_epi32. change (8 / 2)%nat with 4%nat. unfold pack at 2, to_reg.
  assert (B : forall j, (imm2 imm j < length xs)%nat) by (intros; rewrite H; apply Nat.mod_upper_bound; lia).
  cbn [flat_map map concat]. rewrite !lane_pack by apply B. reflexivity.
Qed.
Lemma slli8_pack (x y : word 8) : mm_slli (pack [x; y]) 8 = pack [w0 8; x].
Proof. reflexivity. Qed.

(** a register of words of [w] bytes as words of 2w bytes and back *)
Definition lo_half {w} (x : word (2 * w)) : word w := mkw w (uval x).
Definition hi_half {w} (x : word (2 * w)) : word w := mkw w (uval x / modulus w).
Lemma enc_halves w (x : word (2 * w)) : enc x = enc (lo_half x) ++ enc (hi_half x).
Proof.
  unfold lo_half, hi_half. rewrite !enc_mkw. unfold enc. rewrite <- bytes_add. f_equal. lia.
Qed.
Lemma pack_halves w (xs : list (word (2 * w))) : pack xs = pack (flat_map (fun x => [lo_half x; hi_half x]) xs).
Proof.
  unfold pack, to_reg. induction xs as [|x xs IH]; cbn [map concat flat_map app]; auto.
  rewrite IH, enc_halves, <- app_assoc. reflexivity.
Qed.

Lemma blend_epi16_pack sse41 m (xs ys : list (word 2)) : 0 <= m < 256 -> length xs = 8%nat -> length ys = 8%nat ->
  blend_epi16 sse41 m (pack xs) (pack ys) = pack (blend_spec m xs ys).
Proof.
  intros Hm Hx Hy. unfold blend_epi16. destruct sse41; [apply blend_pack; auto; [lia|right; left; auto]|].
  destruct (Z.eqb_spec m 0x00) as [->|_].
  { f_equal. unfold blend_spec. rewrite Hx. explode_to 8%nat xs Hx. explode_to 8%nat ys Hy. reflexivity. }
  destruct (Z.eqb_spec m 0x0f) as [->|_].
  { explode_to 8%nat xs Hx. explode_to 8%nat ys Hy. unfold blend_spec. cbv [length]. reflexivity. }
  destruct (Z.eqb_spec m 0xff) as [->|_].
  { f_equal. unfold blend_spec. rewrite Hx. explode_to 8%nat xs Hx. explode_to 8%nat ys Hy. reflexivity. }
  destruct (Z.eqb_spec m 0xcc) as [->|_].
  { explode_to 8%nat xs Hx. explode_to 8%nat ys Hy. reflexivity. }
  destruct (Z.eqb_spec m 0x33) as [->|_].
  { explode_to 8%nat xs Hx. explode_to 8%nat ys Hy. reflexivity. }
  cbv zeta. apply maskblend_pack; auto. now apply blend_epi16_mask_ok.
Qed.

Lemma blend_pd_pack sse41 m (xs ys : list (word 8)) : 0 <= m < 4 -> length xs = 2%nat -> length ys = 2%nat ->
  blend_pd sse41 (Z.to_nat m) (pack xs) (pack ys) = Some (pack (blend_spec m xs ys)).
Proof.
  intros Hm Hx Hy. unfold blend_pd. destruct sse41.
  { f_equal. apply blend_pack; auto; [lia|unfold lane_ok; auto]. }
  explode_to 2%nat xs Hx. explode_to 2%nat ys Hy.
  assert (C : m = 0 \/ m = 1 \/ m = 2 \/ m = 3) by lia.
  destruct C as [->|[->|[->| ->]]]; reflexivity.
Qed.
Definition opt_list_eqb (a : option (list Z)) (b : list Z) : bool := match a with Some x => zlist_eqb x b | None => false end.
Lemma opt_list_eqb_eq a b : opt_list_eqb a b = true -> a = Some b.
Proof. destruct a; cbn; intros H; [f_equal; now apply zlist_eqb_eq|discriminate H]. Qed.
Lemma blend_ps_mask_ok m : 1 <= m < 15 -> blend_ps_mask (Z.to_nat m) = Some (pack (map (wmask 4) (tab 4 (Z.testbit m)))).
Proof.
  intros H. apply opt_list_eqb_eq. replace m with (m - 1 + 1) by lia.
  apply (range_check (fun m => opt_list_eqb (blend_ps_mask (Z.to_nat (m + 1))) (pack (map (wmask 4) (tab 4 (Z.testbit (m + 1)))))) 14); [|lia].
  vm_compute. reflexivity.
Qed.
Lemma blend_ps_pack sse41 m (xs ys : list (word 4)) : 0 <= m < 16 -> length xs = 4%nat -> length ys = 4%nat ->
  blend_ps sse41 (Z.to_nat m) (pack xs) (pack ys) = Some (pack (blend_spec m xs ys)).
Proof.
  intros Hm Hx Hy. unfold blend_ps. destruct sse41.
  { f_equal. apply blend_pack; auto; [lia|unfold lane_ok; auto]. }
  assert (C : m = 0 \/ m = 15 \/ 1 <= m < 15) by lia.
  destruct C as [->|[->|C]].
  - explode_to 4%nat xs Hx. explode_to 4%nat ys Hy. reflexivity.
  - explode_to 4%nat xs Hx. explode_to 4%nat ys Hy. reflexivity.
  - pose proof (blend_ps_mask_ok m C) as E.
    pose proof (maskblend_pack 4 xs ys m _ Hx Hy eq_refl) as M.
    assert (N0 : Z.to_nat m <> 0%nat) by lia. assert (N15 : Z.to_nat m <> 15%nat) by lia.
    rewrite <- M. revert E N0 N15. generalize (Z.to_nat m). intros k E N0 N15.
    do 16 (destruct k as [|k]; [first [congruence|now rewrite E]|]). now rewrite E.
Qed.

(** * 64-bit comparisons *)
Lemma pack_halves2 (x y : word 8) : pack [x; y] = pack [@lo_half 4 x; @hi_half 4 x; @lo_half 4 y; @hi_half 4 y].
Proof. apply (pack_halves 4 [x; y]). Qed.
Lemma uval_halves w (x : word (2 * w)) : uval x = uval (lo_half x) + modulus w * uval (hi_half x).
Proof.
  unfold lo_half, hi_half. rewrite !uval_mkw. pose proof (uval_range x) as H. pose proof (modulus_pos w).
  assert (M : modulus (2 * w) = modulus w * modulus w).
  { unfold modulus, bits. rewrite <- Z.pow_add_r by lia. f_equal. lia. }
  rewrite (Z.mod_small (uval x / modulus w)). { pose proof (Z.div_mod (uval x) (modulus w)). lia. }
  split; [apply Z.div_pos; lia|]. apply Z.div_lt_upper_bound; lia.
Qed.
Lemma halves_eqb w (x y : word (2 * w)) : (uval x =? uval y) = (uval (lo_half x) =? uval (lo_half y)) && (uval (hi_half x) =? uval (hi_half y)).
Proof.
  rewrite (uval_halves w x), (uval_halves w y).
  pose proof (uval_range (lo_half x)). pose proof (uval_range (lo_half y)).
  destruct (Z.eqb_spec (uval (lo_half x)) (uval (lo_half y))), (Z.eqb_spec (uval (hi_half x)) (uval (hi_half y)));
    cbn [andb]; [apply Z.eqb_eq|apply Z.eqb_neq|apply Z.eqb_neq|apply Z.eqb_neq]; nia.
Qed.
Lemma sval_halves w (x : word (2 * w)) : (0 < w)%nat -> sval x = uval (lo_half x) + modulus w * sval (hi_half x).
Proof.
  intros Hw. unfold sval, to_signed. rewrite (uval_halves w x).
  assert (M : modulus (2 * w) = modulus w * modulus w).
  { unfold modulus, bits. rewrite <- Z.pow_add_r by lia. f_equal. lia. }
  pose proof (modulus_even w Hw) as E. pose proof (modulus_pos w).
  pose proof (uval_range (lo_half x)). pose proof (uval_range (hi_half x)).
  assert (D : modulus (2 * w) / 2 = modulus w * (modulus w / 2)).
  { rewrite M. rewrite E at 2. replace (modulus w * (2 * (modulus w / 2))) with (modulus w * (modulus w / 2) * 2) by ring. now rewrite Z.div_mul by lia. }
  rewrite D. destruct (Z.ltb_spec (uval (hi_half x)) (modulus w / 2)), (Z.ltb_spec (uval (lo_half x) + modulus w * uval (hi_half x)) (modulus w * (modulus w / 2))); nia.
Qed.
Lemma halves_sgt w (x y : word (2 * w)) : (0 < w)%nat ->
  (sval y <? sval x) = (sval (hi_half y) <? sval (hi_half x)) || ((sval (hi_half y) =? sval (hi_half x)) && (uval (lo_half y) <? uval (lo_half x))).
Proof.
  intros Hw. rewrite (sval_halves w x), (sval_halves w y) by auto.
  pose proof (uval_range (lo_half x)). pose proof (uval_range (lo_half y)).
  destruct (Z.ltb_spec (uval (lo_half y) + modulus w * sval (hi_half y)) (uval (lo_half x) + modulus w * sval (hi_half x)));
  destruct (Z.ltb_spec (sval (hi_half y)) (sval (hi_half x))); destruct (Z.eqb_spec (sval (hi_half y)) (sval (hi_half x)));
  destruct (Z.ltb_spec (uval (lo_half y)) (uval (lo_half x))); cbn [orb andb]; auto; exfalso; nia.
Qed.

Definition join {w} (p q : word w) : word (2 * w) := mkw (2 * w) (uval p + modulus w * uval q).
Lemma uval_join w (p q : word w) : uval (join p q) = uval p + modulus w * uval q.
Proof.
  unfold join. rewrite uval_mkw. apply Z.mod_small. pose proof (uval_range p). pose proof (uval_range q).
  assert (M : modulus (2 * w) = modulus w * modulus w).
  { unfold modulus, bits. rewrite <- Z.pow_add_r by lia. f_equal. lia. }
  rewrite M. nia.
Qed.
Lemma lo_join w (p q : word w) : lo_half (join p q) = p.
Proof.
  apply word_ext. unfold lo_half. rewrite uval_mkw, uval_join. pose proof (uval_range p).
  rewrite Z.mul_comm, Z.mod_add, Z.mod_small; lia.
Qed.
Lemma hi_join w (p q : word w) : hi_half (join p q) = q.
Proof.
  apply word_ext. unfold hi_half. rewrite uval_mkw, uval_join. pose proof (uval_range p). pose proof (uval_range q).
  rewrite Z.mul_comm, Z.div_add, Z.div_small, Z.mod_small; lia.
Qed.
Lemma srli64_32 (p q r s : word 4) : srli_epi 8 (pack [p; q; r; s]) 32 = pack [q; w0 4; s; w0 4].
Proof.
  assert (J : forall p q r s : word 4, pack [p; q; r; s] = pack [join p q; join r s]).
  { intros. rewrite (pack_halves 4 [join p0 q0; join r0 s0]). cbn [flat_map app]. now rewrite !lo_join, !hi_join. }
  assert (S : forall p q : word 4, mkw (2 * 4) (uval (join p q) / 2 ^ 32) = join q (w0 4)).
  { intros. apply word_ext. rewrite uval_mkw, !uval_join, uval_w0. change (2 ^ 32) with (modulus 4).
    pose proof (uval_range p0). pose proof (uval_range q0). rewrite Z.mul_comm, Z.div_add, Z.div_small by lia.
    rewrite Z.mod_small; [lia|]. split; [lia|]. apply Z.lt_le_trans with (modulus 4); [lia|]. vm_compute. discriminate. }
  rewrite J. unfold srli_epi. rewrite (lift1_pack (2 * 4)) by reflexivity. cbn [map]. rewrite !S, <- J. reflexivity.
Qed.
Lemma wmask_halves b : @lo_half 4 (wmask 8 b) = wmask 4 b /\ @hi_half 4 (wmask 8 b) = wmask 4 b.
Proof. destruct b; split; apply word_ext; vm_compute; reflexivity. Qed.
Lemma pack_wmask2 a b : pack [wmask 8 a; wmask 8 b] = pack [wmask 4 a; wmask 4 a; wmask 4 b; wmask 4 b].
Proof.
  rewrite (pack_halves2 (wmask 8 a) (wmask 8 b)).
  now rewrite !(proj1 (wmask_halves _)), !(proj2 (wmask_halves _)).
Qed.
Lemma wand_masks w a b : wand (wmask w a) (wmask w b) = wmask w (a && b).
Proof. rewrite wand_mask. destruct a; cbn [andb]; auto. Qed.
Lemma wmask_false w : wmask w false = w0 w.
Proof. reflexivity. Qed.
Lemma wor_masks w a b : wor (wmask w a) (wmask w b) = wmask w (a || b).
Proof.
  destruct a; cbn [orb].
  - destruct b; [|apply wor_0_r]. apply word_ext. unfold wor. rewrite uval_mkw, Z.lor_diag. apply Z.mod_small, uval_range.
  - apply wor_0_l.
Qed.

Lemma cmpeq_epi64_pack sse41 (xs ys : list (word 8)) : length xs = 2%nat -> length ys = 2%nat ->
  cmpeq_epi64 sse41 (pack xs) (pack ys) = pack (map2 (fun a b => wmask 8 (uval a =? uval b)) xs ys).
Proof.
  intros Hx Hy. unfold cmpeq_epi64. destruct sse41.
  { unfold cmpeq_epi. now rewrite lift2_pack. }
  explode_to 2%nat xs Hx. explode_to 2%nat ys Hy. cbn [map2].
  rewrite !(pack_halves2 _ _). unfold cmpeq_epi. rewrite lift2_pack by reflexivity. cbn [map2].
  rewrite shuffle_epi32_pack by reflexivity. unfold imm2. cbn [Nat.mul Nat.add Nat.div Nat.modulo Nat.pow Nat.divmod fst snd Nat.sub map nth].
  rewrite and_pack by reflexivity. cbn [map2]. rewrite !wand_masks.
  rewrite !(proj1 (wmask_halves _)), !(proj2 (wmask_halves _)).
  pose proof (halves_eqb 4 x x1) as E1. pose proof (halves_eqb 4 x0 x2) as E2. change (2 * 4)%nat with 8%nat in E1, E2. rewrite E1, E2.
  repeat (f_equal; try apply andb_comm).
Qed.

Lemma cmpgt_epi64_pack sse42 (xs ys : list (word 8)) : length xs = 2%nat -> length ys = 2%nat ->
  cmpgt_epi64 sse42 (pack xs) (pack ys) = pack (map2 (fun a b => wmask 8 (sval b <? sval a)) xs ys).
Proof.
  intros Hx Hy. unfold cmpgt_epi64. destruct sse42.
  { unfold cmpgt_epi. now rewrite lift2_pack. }
  explode_to 2%nat xs Hx. explode_to 2%nat ys Hy. cbn [map2].
  assert (K : srli_epi 8 (setmin_epi 4) 32 = pack [mkw 4 (2 ^ (bits 4 - 1)); w0 4; mkw 4 (2 ^ (bits 4 - 1)); w0 4])
    by (vm_compute; reflexivity).
  cbv zeta. rewrite K, !(pack_halves2 _ _). clear K. rewrite !xor_pack by reflexivity. cbn [map2].
  unfold cmpgt_epi, cmpeq_epi. rewrite !lift2_pack by reflexivity. cbn [map2].
  rewrite srli64_32, and_pack by reflexivity. cbn [map2].
  rewrite !shuffle_epi32_pack by reflexivity. cbn [map].
  change (imm2 245 0) with 1%nat. change (imm2 245 1) with 1%nat. change (imm2 245 2) with 3%nat. change (imm2 245 3) with 3%nat.
  change (imm2 160 0) with 0%nat. change (imm2 160 1) with 0%nat. change (imm2 160 2) with 2%nat. change (imm2 160 3) with 2%nat.
  cbn [nth]. rewrite or_pack by reflexivity. cbn [map2]. rewrite !wand_masks. rewrite !wor_masks.
  rewrite !(proj1 (wmask_halves _)), !(proj2 (wmask_halves _)).
  assert (X0 : forall a : word 4, wxor a (w0 4) = a).
  { intros a. apply word_ext. unfold wxor. rewrite uval_mkw, uval_w0, Z.lxor_0_r. apply Z.mod_small, uval_range. }
  rewrite !X0, !flip_sign by lia.
  assert (F : forall a b : Z, (a - modulus 4 / 2 <? b - modulus 4 / 2) = (a <? b)).
  { intros a b. generalize (modulus 4 / 2). intros m. destruct (Z.ltb_spec (a - m) (b - m)), (Z.ltb_spec a b); auto; lia. }
  rewrite !F.
  assert (Q : forall a b : word 4, (uval a =? uval b) = (sval b =? sval a)).
  { intros a b. destruct (Z.eqb_spec (uval a) (uval b)), (Z.eqb_spec (sval b) (sval a)); auto; exfalso.
    - apply n. f_equal. symmetry. now apply word_ext.
    - apply n. f_equal. symmetry. now apply sval_inj. }
  rewrite !Q.
  pose proof (halves_sgt 4 x x1 ltac:(lia)) as E1. pose proof (halves_sgt 4 x0 x2 ltac:(lia)) as E2.
  change (2 * 4)%nat with 8%nat in E1, E2. rewrite E1, E2. reflexivity.
Qed.

(** * 8 to 32 bit *)
Lemma cvtepu8_epi32_pack sse41 (xs : list (word 1)) : length xs = 16%nat ->
  cvtepu8_epi32 sse41 (pack xs) = pack (map (fun x => mkw 4 (uval x)) (firstn 4 xs)).
Proof.
  intros Hx. unfold cvtepu8_epi32. destruct sse41.
  - unfold mm_cvtepu8_epi32. rewrite lanes_pack; auto.
  - rewrite cvtepu_pack by auto. change (8 / 1)%nat with 8%nat.
    rewrite (cvtepu_pack false 2); [|auto|rewrite map_length, firstn_length; rewrite Hx; reflexivity].
    change (8 / 2)%nat with 4%nat. rewrite firstn_map, firstn_firstn, map_map. change (Nat.min 4 8) with 4%nat.
    f_equal. apply map_ext. intros a. apply word_ext. rewrite !uval_mkw. pose proof (uval_range a). 
    assert (modulus 1 = 256 /\ modulus (2 * 1) = 65536) as [M1 M2] by (split; reflexivity).
    rewrite (Z.mod_small _ (modulus (2 * 1))) by lia. reflexivity.
Qed.
Lemma cvtepi8_epi32_pack sse41 (xs : list (word 1)) : length xs = 16%nat ->
  cvtepi8_epi32 sse41 (pack xs) = pack (map (fun x => mkw 4 (sval x)) (firstn 4 xs)).
Proof.
  intros Hx. unfold cvtepi8_epi32. destruct sse41.
  - unfold mm_cvtepi8_epi32. rewrite lanes_pack; auto.
  - unfold cmplt_epi. rewrite (setzero_pack 1) by (unfold lane_ok; auto). rewrite lift2_pack by (rewrite ?repeat_length; auto).
    change (16 / 1)%nat with 16%nat. rewrite map2_repeat_r by auto.
    assert (E : forall x : word 1, enc (mkw 4 (sval x)) = enc x ++ enc (wmask 1 (sval x <? sval (w0 1))) ++ enc (wmask 1 (sval x <? sval (w0 1))) ++ enc (wmask 1 (sval x <? sval (w0 1)))).
    { intros x. rewrite sval_w0 by lia.
      rewrite enc_mkw. pose proof (sval_range x ltac:(lia)) as R. pose proof (sval_mod x) as M.
      change (modulus 1 / 2) with 128 in R. change (modulus 1) with 256 in M.
      assert (C : exists k, 0 <= k < 256 /\ sval x = k - 128) by (exists (sval x + 128); lia). destruct C as [k [Hk Ek]].
      assert (U : uval x = (k - 128) mod 256) by (rewrite <- Ek; congruence).
      replace (enc x) with (bytes 1 (uval x)) by reflexivity. rewrite U, Ek.
      apply zlist_eqb_eq. clear - Hk.
      apply (range_check (fun k => zlist_eqb (bytes 4 (k - 128)) (bytes 1 ((k - 128) mod 256) ++ enc (wmask 1 (k - 128 <? 0)) ++
        enc (wmask 1 (k - 128 <? 0)) ++ enc (wmask 1 (k - 128 <? 0)))) 256); [vm_compute; reflexivity|lia]. }
    explode_to 16%nat xs Hx. unfold pack, to_reg. cbn [map firstn concat]. rewrite !E. reflexivity.
Qed.
