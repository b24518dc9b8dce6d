From Coq Require Import ZArith List Bool Lia.
From Verif.Spec Require Import Seq.
From Verif.Model Require Import Word SseReg SseMove SseInt.
From Verif.Proof Require Import SeqP WordP SortNetP.
Import ListNotations.
Local Open Scope Z_scope.

(** * bytes of bitwise operations *)
Lemma mod256_bits z i : Z.testbit (z mod 256) i = (i <? 8) && Z.testbit z i.
Proof.
  replace (z mod 256) with (z mod 2 ^ 8) by reflexivity. destruct (Z.ltb_spec i 8); rewrite ?andb_true_l, ?andb_false_l.
  - destruct (Z.ltb_spec i 0); [now rewrite !Z.testbit_neg_r by lia|]. now rewrite Z.mod_pow2_bits_low by lia.
  - apply Z.mod_pow2_bits_high. lia.
Qed.
Lemma div256_shift z : z / 256 = Z.shiftr z 8.
Proof. now rewrite Z.shiftr_div_pow2 by lia. Qed.

Ltac mod_bitop := apply Z.bits_inj'; intros i Hi; rewrite ?mod256_bits, ?Z.land_spec, ?Z.lor_spec, ?Z.lxor_spec, ?mod256_bits;
  destruct (Z.ltb_spec i 8); cbn; auto.

Lemma bytes_land n : forall x y, bytes n (Z.land x y) = map2 Z.land (bytes n x) (bytes n y).
Proof.
  induction n as [|n IH]; intros x y; cbn [bytes map2]; auto. f_equal; [mod_bitop|].
  now rewrite !div256_shift, Z.shiftr_land, <- !div256_shift, IH.
Qed.
Lemma bytes_lor n : forall x y, bytes n (Z.lor x y) = map2 Z.lor (bytes n x) (bytes n y).
Proof.
  induction n as [|n IH]; intros x y; cbn [bytes map2]; auto. f_equal; [mod_bitop|].
  now rewrite !div256_shift, Z.shiftr_lor, <- !div256_shift, IH.
Qed.
Lemma bytes_lxor n : forall x y, bytes n (Z.lxor x y) = map2 Z.lxor (bytes n x) (bytes n y).
Proof.
  induction n as [|n IH]; intros x y; cbn [bytes map2]; auto. f_equal; [mod_bitop|].
  now rewrite !div256_shift, Z.shiftr_lxor, <- !div256_shift, IH.
Qed.
Lemma bytes_lnot n : forall x, bytes n (Z.lnot x) = map (fun b => 255 - b) (bytes n x).
Proof.
  induction n as [|n IH]; intros x; cbn [bytes map]; auto. unfold Z.lnot in *. f_equal.
  - pose proof (Z.mod_pos_bound x 256 ltac:(lia)). pose proof (Z.div_mod x 256 ltac:(lia)).
    symmetry. apply Z.mod_unique with (q := - (x / 256) - 1); lia.
  - rewrite <- IH. f_equal. pose proof (Z.mod_pos_bound x 256 ltac:(lia)). pose proof (Z.div_mod x 256 ltac:(lia)).
    symmetry. unfold Z.pred. apply Z.div_unique with (r := 255 - x mod 256); lia.
Qed.

Lemma bytes_mod n : forall z, bytes n (z mod modulus n) = bytes n z.
Proof.
  induction n as [|n IH]; intros z; cbn [bytes]; auto. rewrite modulus_S. pose proof (modulus_pos n).
  rewrite Z.rem_mul_r by lia. pose proof (Z.mod_pos_bound z 256 ltac:(lia)). f_equal.
  - rewrite (Z.mul_comm 256). rewrite Z.mod_add by lia. now apply Z.mod_small.
  - rewrite (Z.mul_comm 256). rewrite Z.div_add by lia. rewrite Z.div_small by lia. apply IH.
Qed.

Definition byte (b : Z) : Prop := 0 <= b < 256.
Lemma bytes_byte n : forall z, Forall byte (bytes n z).
Proof. induction n; intros z; cbn; constructor; auto. apply Z.mod_pos_bound. lia. Qed.
Lemma of_bytes_range bs : Forall byte bs -> 0 <= of_bytes bs < modulus (length bs).
Proof.
  induction 1 as [|b bs Hb H IH]; cbn [of_bytes length]; [cbn; lia|]. rewrite modulus_S. unfold byte in Hb. lia.
Qed.
Lemma bytes_of_bytes bs : Forall byte bs -> bytes (length bs) (of_bytes bs) = bs.
Proof.
  induction 1 as [|b bs Hb H IH]; cbn [of_bytes length bytes]; auto. unfold byte in Hb. f_equal.
  - rewrite (Z.mul_comm 256), Z.mod_add by lia. now apply Z.mod_small.
  - rewrite (Z.mul_comm 256), Z.div_add by lia. rewrite Z.div_small by lia. apply IH.
Qed.
Lemma enc_dec w bs : Forall byte bs -> length bs = w -> enc (@dec w bs) = bs.
Proof.
  intros H L. unfold enc, dec. rewrite uval_mkw, bytes_mod. subst w. now apply bytes_of_bytes.
Qed.
Lemma enc_mkw w z : enc (mkw w z) = bytes w z.
Proof. unfold enc. now rewrite uval_mkw, bytes_mod. Qed.

(** * registers *)
Definition lane_ok (w : nat) : Prop := w = 1%nat \/ w = 2%nat \/ w = 4%nat \/ w = 8%nat.
Definition reg_ok (r : reg) : Prop := length r = 16%nat /\ Forall byte r.

Lemma lane_ok_mul w : lane_ok w -> (w * (16 / w) = 16)%nat.
Proof. intros [->|[->|[->| ->]]]; reflexivity. Qed.
Lemma lane_ok_pos w : lane_ok w -> (0 < w)%nat.
Proof. intros [->|[->|[->| ->]]]; lia. Qed.

Lemma chunks_concat {B} w : forall (cs : list (list B)), Forall (fun c => length c = w) cs ->
  chunks w (length cs) (concat cs) = cs.
Proof.
  induction cs as [|c cs IH]; intros H; cbn; auto. inversion H as [|? ? Hc Hcs]; subst x l.
  rewrite firstn_app, Hc, Nat.sub_diag, firstn_O, app_nil_r, firstn_all2 by lia.
  rewrite skipn_app, Hc, Nat.sub_diag, skipn_all2, skipn_O by lia. cbn [app]. now rewrite IH.
Qed.
Lemma concat_chunks {B} w : forall n (r : list B), length r = (w * n)%nat -> concat (chunks w n r) = r.
Proof.
  induction n as [|n IH]; intros r H; cbn.
  - destruct r; auto. cbn in H. lia.
  - rewrite IH by (rewrite skipn_length; lia). apply firstn_skipn.
Qed.
Lemma chunks_forall {B} w : forall n (r : list B), length r = (w * n)%nat -> Forall (fun c => length c = w) (chunks w n r).
Proof.
  induction n as [|n IH]; intros r H; cbn; constructor.
  - rewrite firstn_length. lia.
  - apply IH. rewrite skipn_length. lia.
Qed.
Lemma chunks_length {B} w : forall n (r : list B), length (chunks w n r) = n.
Proof. induction n; intros; cbn; auto. Qed.

Lemma lanes_pack_gen w n (xs : list (word w)) : length xs = n -> map dec (chunks w n (pack xs)) = xs.
Proof.
  intros <-. unfold pack, to_reg.
  rewrite <- (map_length enc xs) at 1. rewrite chunks_concat.
  - rewrite map_map. rewrite <- (map_id xs) at 2. apply map_ext. intros. apply dec_enc.
  - apply Forall_forall. intros c Hc. apply in_map_iff in Hc. destruct Hc as (a & <- & _). apply enc_length.
Qed.
Lemma lanes_pack w (xs : list (word w)) : length xs = (16 / w)%nat -> lanes w (pack xs) = xs.
Proof. apply lanes_pack_gen. Qed.
Lemma pack_length w (xs : list (word w)) : length (pack xs) = (w * length xs)%nat.
Proof.
  unfold pack, to_reg. induction xs as [|x xs IH]; cbn; [lia|]. rewrite app_length, IH, enc_length. lia.
Qed.
Lemma pack_byte w (xs : list (word w)) : Forall byte (pack xs).
Proof.
  unfold pack, to_reg. induction xs as [|x xs IH]; cbn; [constructor|]. apply Forall_app. split; auto. apply bytes_byte.
Qed.
Lemma pack_ok w (xs : list (word w)) : lane_ok w -> length xs = (16 / w)%nat -> reg_ok (pack xs).
Proof. intros Hw H. split; [|apply pack_byte]. rewrite pack_length, H. now apply lane_ok_mul. Qed.
Lemma lanes_length w r : length (lanes w r) = (16 / w)%nat.
Proof. unfold lanes, of_reg. now rewrite map_length, chunks_length. Qed.
Lemma Forall_firstn {X} (P : X -> Prop) n : forall l, Forall P l -> Forall P (firstn n l).
Proof. induction n; intros [|x l] H; cbn; auto. inversion H; subst. constructor; auto. Qed.
Lemma Forall_skipn {X} (P : X -> Prop) n : forall l, Forall P l -> Forall P (skipn n l).
Proof. induction n; intros [|x l] H; cbn; auto. inversion H; subst. auto. Qed.
Lemma pack_chunks w : forall n r, length r = (w * n)%nat -> Forall byte r -> pack (map (@dec w) (chunks w n r)) = r.
Proof.
  induction n as [|n IH]; intros r L B; cbn.
  - destruct r; auto. cbn in L. lia.
  - unfold pack, to_reg in *. cbn. rewrite IH.
    + rewrite enc_dec; [apply firstn_skipn|now apply Forall_firstn|]. rewrite firstn_length. lia.
    + rewrite skipn_length. lia.
    + now apply Forall_skipn.
Qed.
Lemma pack_lanes w r : lane_ok w -> reg_ok r -> pack (lanes w r) = r.
Proof. intros Hw [L B]. apply pack_chunks; auto. rewrite L. symmetry. now apply lane_ok_mul. Qed.

Lemma map2_length {X Y Z} (f : X -> Y -> Z) : forall xs ys, length (map2 f xs ys) = Nat.min (length xs) (length ys).
Proof. induction xs; intros [|y ys]; cbn; auto. Qed.
Lemma map2_app {X Y Z} (f : X -> Y -> Z) : forall a c b d, length a = length b -> map2 f (a ++ c) (b ++ d) = map2 f a b ++ map2 f c d.
Proof. induction a; intros c [|y b] d H; cbn in *; try discriminate H; auto. now rewrite IHa by lia. Qed.
Lemma map2_map {X X' Y Y' Z} (f : X' -> Y' -> Z) (g : X -> X') (h : Y -> Y') : forall xs ys, map2 f (map g xs) (map h ys) = map2 (fun x y => f (g x) (h y)) xs ys.
Proof. induction xs; intros [|y ys]; cbn; auto. now rewrite IHxs. Qed.
Lemma map2_map_l {X X' Y Z} (f : X' -> Y -> Z) (g : X -> X') : forall xs ys, map2 f (map g xs) ys = map2 (fun x y => f (g x) y) xs ys.
Proof. induction xs; intros [|y ys]; cbn; auto. now rewrite IHxs. Qed.
Lemma map_map2 {X Y Z W} (g : Z -> W) (f : X -> Y -> Z) : forall xs ys, map g (map2 f xs ys) = map2 (fun x y => g (f x y)) xs ys.
Proof. induction xs; intros [|y ys]; cbn; auto. now rewrite IHxs. Qed.
Lemma map2_ext {X Y Z} (f g : X -> Y -> Z) : (forall x y, f x y = g x y) -> forall xs ys, map2 f xs ys = map2 g xs ys.
Proof. intros H. induction xs; intros [|y ys]; cbn; auto. now rewrite IHxs, H. Qed.
Lemma map2_repeat_r {X Y Z} (f : X -> Y -> Z) c : forall xs n, length xs = n -> map2 f xs (repeat c n) = map (fun x => f x c) xs.
Proof. induction xs; intros [|n] H; cbn in *; try discriminate H; auto. now rewrite IHxs by lia. Qed.
Lemma map2_repeat_l {X Y Z} (f : X -> Y -> Z) c : forall ys n, length ys = n -> map2 f (repeat c n) ys = map (fun y => f c y) ys.
Proof. induction ys; intros [|n] H; cbn in *; try discriminate H; auto. now rewrite IHys by lia. Qed.
Lemma map2_diag {X Z} (f : X -> X -> Z) : forall xs, map2 f xs xs = map (fun x => f x x) xs.
Proof. induction xs; cbn; auto. now rewrite IHxs. Qed.

Lemma bitop_pack w (f : Z -> Z -> Z) :
  (forall x y, bytes w (f x y) = map2 f (bytes w x) (bytes w y)) ->
  forall xs ys : list (word w), length xs = length ys ->
    map2 f (pack xs) (pack ys) = pack (map2 (fun a b => mkw w (f (uval a) (uval b))) xs ys).
Proof.
  intros Hf. unfold pack, to_reg. induction xs as [|x xs IH]; intros [|y ys] L; cbn in *; try discriminate L; auto.
  rewrite map2_app by (now rewrite !enc_length). rewrite IH by lia. f_equal. rewrite enc_mkw, Hf. reflexivity.
Qed.
Lemma and_pack w (xs ys : list (word w)) : length xs = length ys -> mm_and (pack xs) (pack ys) = pack (map2 wand xs ys).
Proof. apply bitop_pack. apply bytes_land. Qed.
Lemma or_pack w (xs ys : list (word w)) : length xs = length ys -> mm_or (pack xs) (pack ys) = pack (map2 wor xs ys).
Proof. apply bitop_pack. apply bytes_lor. Qed.
Lemma xor_pack w (xs ys : list (word w)) : length xs = length ys -> mm_xor (pack xs) (pack ys) = pack (map2 wxor xs ys).
Proof. apply bitop_pack. apply bytes_lxor. Qed.
Definition wandnot {w} (a b : word w) : word w := mkw w (Z.land (Z.lnot (uval a)) (uval b)).
Lemma andnot_pack w (xs ys : list (word w)) : length xs = length ys -> mm_andnot (pack xs) (pack ys) = pack (map2 wandnot xs ys).
Proof.
  unfold mm_andnot, pack, to_reg. revert ys. induction xs as [|x xs IH]; intros [|y ys] L; cbn in *; try discriminate L; auto.
  rewrite map2_app by (now rewrite !enc_length). rewrite IH by lia. f_equal.
  unfold wandnot. rewrite enc_mkw, bytes_land, bytes_lnot. now rewrite map2_map_l.
Qed.

Lemma set1_lanes w z : lane_ok w -> lanes w (set1 w z) = repeat (mkw w z) (16 / w).
Proof. intros. apply lanes_pack. now rewrite repeat_length. Qed.
Lemma setzero_pack w : lane_ok w -> mm_setzero = pack (repeat (w0 w) (16 / w)).
Proof.
  intros Hw. unfold pack, to_reg. rewrite map_repeat, enc_w0.
  destruct Hw as [->|[->|[->| ->]]]; reflexivity.
Qed.

Lemma lift1_pack w f (xs : list (word w)) : length xs = (16 / w)%nat -> lift1 w f (pack xs) = pack (map f xs).
Proof. intros H. unfold lift1. now rewrite lanes_pack. Qed.
Lemma lift2_pack w f (xs ys : list (word w)) : length xs = (16 / w)%nat -> length ys = (16 / w)%nat ->
  lift2 w f (pack xs) (pack ys) = pack (map2 f xs ys).
Proof. intros H H'. unfold lift2. now rewrite !lanes_pack. Qed.

(** * flipping the sign bit *)
Lemma lxor_pow2 k z : 0 <= k -> 0 <= z < 2 ^ (k + 1) -> Z.lxor z (2 ^ k) = if z <? 2 ^ k then z + 2 ^ k else z - 2 ^ k.
Proof.
  intros Hk Hz. rewrite Z.pow_add_r in Hz by lia. change (2 ^ 1) with 2 in Hz.
  assert (P : 0 < 2 ^ k) by (apply Z.pow_pos_nonneg; lia).
  assert (N : forall y, 0 <= y < 2 ^ k -> Z.lxor y (2 ^ k) = y + 2 ^ k).
  { intros y Hy. symmetry. apply Z.add_nocarry_lxor. apply Z.bits_inj'. intros i Hi. rewrite Z.land_spec, Z.bits_0.
    rewrite Z.pow2_bits_eqb by lia. destruct (Z.eqb_spec k i); [|apply andb_false_r]. subst i.
    rewrite andb_true_r. destruct (Z.eq_dec y 0) as [->|]; [apply Z.bits_0|].
    apply Z.bits_above_log2; [lia|]. apply Z.log2_lt_pow2; lia. }
  destruct (Z.ltb_spec z (2 ^ k)) as [H|H]; [apply N; lia|].
  replace z with ((z - 2 ^ k) + 2 ^ k) at 1 by lia. rewrite <- N by lia.
  rewrite Z.lxor_assoc, Z.lxor_nilpotent, Z.lxor_0_r. reflexivity.
Qed.

Lemma half_pow w : (0 < w)%nat -> modulus w / 2 = 2 ^ (bits w - 1).
Proof.
  intros H. unfold modulus. replace (bits w) with (1 + (bits w - 1)) at 1 by lia.
  rewrite Z.pow_add_r by (unfold bits; lia). change (2 ^ 1) with 2. rewrite Z.mul_comm, Z.div_mul by lia. reflexivity.
Qed.
Lemma flip_sign w (a : word w) : (0 < w)%nat -> sval (wxor a (mkw w (2 ^ (bits w - 1)))) = uval a - modulus w / 2.
Proof.
  intros H. pose proof (uval_range a) as R. pose proof (modulus_even w H) as E. pose proof (half_pow w H) as P.
  unfold sval, wxor. rewrite !uval_mkw. rewrite <- P.
  rewrite (Z.mod_small (modulus w / 2)) by lia. rewrite P at 1 2.
  assert (B : 0 <= bits w - 1) by (unfold bits; lia).
  rewrite lxor_pow2; [|lia|]. 2:{ replace (bits w - 1 + 1) with (bits w) by lia. exact R. }
  rewrite <- P. unfold to_signed. destruct (Z.ltb_spec (uval a) (modulus w / 2)).
  - rewrite Z.mod_small by lia. destruct (Z.ltb_spec (uval a + modulus w / 2) (modulus w / 2)); lia.
  - rewrite Z.mod_small by lia. destruct (Z.ltb_spec (uval a - modulus w / 2) (modulus w / 2)); lia.
Qed.

(** * comparisons *)
Lemma cmpgt_epu_pack w (xs ys : list (word w)) : lane_ok w -> length xs = (16 / w)%nat -> length ys = (16 / w)%nat ->
  cmpgt_epu w (pack xs) (pack ys) = pack (map2 (fun a b => wmask w (uval b <? uval a)) xs ys).
Proof.
  intros Hw Hx Hy. unfold cmpgt_epu, cmpgt_epi, setmin_epi, set1.
  rewrite !xor_pack by (rewrite repeat_length; auto). rewrite !map2_repeat_r by auto.
  rewrite lift2_pack by (rewrite map_length; auto). rewrite map2_map. f_equal. apply map2_ext. intros a b.
  rewrite !flip_sign by (now apply lane_ok_pos). f_equal.
  destruct (Z.ltb_spec (uval b - modulus w / 2) (uval a - modulus w / 2)); destruct (Z.ltb_spec (uval b) (uval a)); auto; lia.
Qed.
Lemma cmplt_epu_pack w (xs ys : list (word w)) : lane_ok w -> length xs = (16 / w)%nat -> length ys = (16 / w)%nat ->
  cmplt_epu w (pack xs) (pack ys) = pack (map2 (fun a b => wmask w (uval a <? uval b)) xs ys).
Proof.
  intros Hw Hx Hy. unfold cmplt_epu, cmplt_epi, setmin_epi, set1.
  rewrite !xor_pack by (rewrite repeat_length; auto). rewrite !map2_repeat_r by auto.
  rewrite lift2_pack by (rewrite map_length; auto). rewrite map2_map. f_equal. apply map2_ext. intros a b.
  rewrite !flip_sign by (now apply lane_ok_pos). f_equal.
  destruct (Z.ltb_spec (uval a - modulus w / 2) (uval b - modulus w / 2)); destruct (Z.ltb_spec (uval a) (uval b)); auto; lia.
Qed.

(** * blending with a mask of full lanes *)
Lemma uval_wmask w b : uval (wmask w b) = if b then Z.ones (bits w) else 0.
Proof.
  unfold wmask. rewrite uval_mkw. pose proof (modulus_pos w). destruct b.
  - rewrite Z.ones_equiv. fold (modulus w). symmetry. apply Z.mod_unique with (q := -1); lia.
  - apply Z.mod_0_l. lia.
Qed.
Lemma bits_nonneg w : 0 <= bits w.
Proof. unfold bits. lia. Qed.
Lemma land_ones_word w (x : word w) : Z.land (Z.ones (bits w)) (uval x) = uval x.
Proof.
  rewrite Z.land_comm, Z.land_ones by apply bits_nonneg. apply Z.mod_small, uval_range.
Qed.
Lemma wand_mask w b (x : word w) : wand (wmask w b) x = if b then x else w0 w.
Proof.
  apply word_ext. unfold wand. rewrite uval_mkw, uval_wmask. destruct b.
  - rewrite land_ones_word. apply Z.mod_small, uval_range.
  - rewrite Z.land_0_l, uval_w0. apply Z.mod_0_l. pose proof (modulus_pos w). lia.
Qed.
Lemma wandnot_mask w b (x : word w) : wandnot (wmask w b) x = if b then w0 w else x.
Proof.
  apply word_ext. unfold wandnot. rewrite uval_mkw, uval_wmask. destruct b.
  - rewrite Z.land_comm, <- Z.ldiff_land, Z.ldiff_ones_r by apply bits_nonneg.
    rewrite Z.shiftr_div_pow2 by apply bits_nonneg. fold (modulus w). rewrite Z.div_small by apply uval_range.
    rewrite Z.shiftl_0_l, uval_w0. apply Z.mod_0_l. pose proof (modulus_pos w). lia.
  - change (Z.lnot 0) with (-1). rewrite Z.land_m1_l. apply Z.mod_small, uval_range.
Qed.
Lemma wor_0_l w (x : word w) : wor (w0 w) x = x.
Proof. unfold wor. rewrite uval_w0, Z.lor_0_l. apply mkw_uval. Qed.
Lemma wor_0_r w (x : word w) : wor x (w0 w) = x.
Proof. unfold wor. rewrite uval_w0, Z.lor_0_r. apply mkw_uval. Qed.

Lemma map3_length {X Y Z W} (f : X -> Y -> Z -> W) : forall xs ys zs, length ys = length xs -> length zs = length xs -> length (map3 f xs ys zs) = length xs.
Proof. induction xs; intros [|y ys] [|z zs] H H'; cbn in *; try discriminate H; try discriminate H'; auto. Qed.
Lemma map3_app {X Y Z W} (f : X -> Y -> Z -> W) : forall a1 a2 b1 b2 c1 c2, length a1 = length b1 -> length a1 = length c1 ->
  map3 f (a1 ++ a2) (b1 ++ b2) (c1 ++ c2) = map3 f a1 b1 c1 ++ map3 f a2 b2 c2.
Proof.
  induction a1; intros a2 [|y b1] b2 [|z c1] c2 H H'; cbn in *; try discriminate H; try discriminate H'; auto.
  now rewrite IHa1 by lia.
Qed.
Lemma bytes_m1 w : bytes w (-1) = repeat 255 w.
Proof. induction w; cbn; auto. now rewrite IHw. Qed.
Lemma enc_wmask w b : enc (wmask w b) = repeat (if b then 255 else 0) w.
Proof. unfold wmask. rewrite enc_mkw. destruct b; [apply bytes_m1|apply bytes_0]. Qed.
Lemma map3_sel_byte (b : bool) : forall a1 b1, length a1 = length b1 ->
  map3 (fun x y m => if 128 <=? m then y else x) a1 b1 (repeat (if b then 255 else 0) (length a1)) = if b then b1 else a1 :> list Z.
Proof.
  induction a1 as [|x a1 IH]; intros [|y b1] H; cbn in *; try discriminate H; [now destruct b|].
  rewrite IH by lia. now destruct b.
Qed.

Lemma blendv_pack sse41 w : forall (xs ys : list (word w)) m, length ys = length xs -> length m = length xs ->
  blendv_epi8 sse41 (pack xs) (pack ys) (pack (map (wmask w) m)) =
  pack (map3 (fun x y (b : bool) => if b then y else x) xs ys m).
Proof.
  intros xs ys m Hy Hm. unfold blendv_epi8. destruct sse41.
  - unfold mm_blendv_epi8, pack, to_reg. revert ys m Hy Hm.
    induction xs as [|x xs IH]; intros [|y ys] [|b m] Hy Hm; cbn in *; try discriminate Hy; try discriminate Hm; auto.
    rewrite map3_app by (now rewrite !enc_length). rewrite IH by lia. f_equal. rewrite enc_wmask.
    rewrite <- (enc_length x) at 3. rewrite map3_sel_byte by (now rewrite !enc_length). now destruct b.
  - rewrite andnot_pack, and_pack by (rewrite map_length; lia). rewrite or_pack by (rewrite !map2_length, map_length; lia).
    f_equal. revert ys m Hy Hm.
    induction xs as [|x xs IH]; intros [|y ys] [|b m] Hy Hm; cbn in *; try discriminate Hy; try discriminate Hm; auto.
    rewrite IH by lia. f_equal. rewrite wandnot_mask, wand_mask. destruct b; [apply wor_0_l|apply wor_0_r].
Qed.
Lemma map3_map2 {X Y Z} (f : X -> Y -> bool -> Z) c : forall xs ys, map3 f xs ys (map2 c xs ys) = map2 (fun x y => f x y (c x y)) xs ys.
Proof. induction xs; intros [|y ys]; cbn; auto. now rewrite IHxs. Qed.
Lemma map3_map2_swap {X Y Z} (f : Y -> X -> bool -> Z) c : forall xs ys, map3 f ys xs (map2 c xs ys) = map2 (fun x y => f y x (c x y)) xs ys.
Proof. induction xs; intros [|y ys]; cbn; auto. now rewrite IHxs. Qed.

Definition wmin_s {w} (a b : word w) : word w := if le_s a b then a else b.
Definition wmax_s {w} (a b : word w) : word w := if le_s a b then b else a.
Definition wmin_u {w} (a b : word w) : word w := if le_u a b then a else b.
Definition wmax_u {w} (a b : word w) : word w := if le_u a b then b else a.

Section MinMax.
  Variables (sse41 : bool) (w : nat) (xs ys : list (word w)).
  Hypothesis Hw : lane_ok w.
  Hypothesis Hx : length xs = (16 / w)%nat.
  Hypothesis Hy : length ys = (16 / w)%nat.

  Lemma cmpgt_epi_pack : cmpgt_epi w (pack xs) (pack ys) = pack (map (wmask w) (map2 (fun a b => sval b <? sval a) xs ys)).
  Proof. unfold cmpgt_epi. rewrite lift2_pack by auto. now rewrite map_map2. Qed.

  Lemma max_epi_pack : max_epi sse41 w (pack xs) (pack ys) = pack (map2 wmax_s xs ys).
  Proof.
    unfold max_epi. destruct sse41.
    - unfold mm_max_epi. rewrite lift2_pack by auto. f_equal. apply map2_ext. intros a b. unfold wmax_s, le_s.
      destruct (Z.ltb_spec (sval b) (sval a)); destruct (Z.leb_spec (sval a) (sval b)); auto; lia.
    - rewrite cmpgt_epi_pack, blendv_pack by (rewrite ?map2_length; lia). rewrite map3_map2_swap. f_equal. apply map2_ext.
      intros a b. unfold wmax_s, le_s. destruct (Z.ltb_spec (sval b) (sval a)); destruct (Z.leb_spec (sval a) (sval b)); auto; lia.
  Qed.
  Lemma min_epi_pack : min_epi sse41 w (pack xs) (pack ys) = pack (map2 wmin_s xs ys).
  Proof.
    unfold min_epi. destruct sse41.
    - unfold mm_min_epi. rewrite lift2_pack by auto. f_equal. apply map2_ext. intros a b. unfold wmin_s, le_s.
      destruct (Z.ltb_spec (sval a) (sval b)); destruct (Z.leb_spec (sval a) (sval b)); auto; try lia.
      symmetry. apply sval_inj. lia.
    - rewrite cmpgt_epi_pack, blendv_pack by (rewrite ?map2_length; lia). rewrite map3_map2. f_equal. apply map2_ext.
      intros a b. unfold wmin_s, le_s. destruct (Z.ltb_spec (sval b) (sval a)); destruct (Z.leb_spec (sval a) (sval b)); auto; lia.
  Qed.
  Lemma max_epu_pack : max_epu sse41 w (pack xs) (pack ys) = pack (map2 wmax_u xs ys).
  Proof.
    unfold max_epu. destruct sse41.
    - unfold mm_max_epu. rewrite lift2_pack by auto. f_equal. apply map2_ext. intros a b. unfold wmax_u, le_u.
      destruct (Z.ltb_spec (uval b) (uval a)); destruct (Z.leb_spec (uval a) (uval b)); auto; lia.
    - rewrite cmpgt_epu_pack by auto. rewrite <- map_map2. rewrite blendv_pack by (rewrite ?map2_length; lia).
      rewrite map3_map2_swap. f_equal. apply map2_ext.
      intros a b. unfold wmax_u, le_u. destruct (Z.ltb_spec (uval b) (uval a)); destruct (Z.leb_spec (uval a) (uval b)); auto; lia.
  Qed.
  Lemma min_epu_pack : min_epu sse41 w (pack xs) (pack ys) = pack (map2 wmin_u xs ys).
  Proof.
    unfold min_epu. destruct sse41.
    - unfold mm_min_epu. rewrite lift2_pack by auto. f_equal. apply map2_ext. intros a b. unfold wmin_u, le_u.
      destruct (Z.ltb_spec (uval a) (uval b)); destruct (Z.leb_spec (uval a) (uval b)); auto; try lia.
      symmetry. apply word_ext. lia.
    - rewrite cmpgt_epu_pack by auto. rewrite <- map_map2. rewrite blendv_pack by (rewrite ?map2_length; lia).
      rewrite map3_map2. f_equal. apply map2_ext.
      intros a b. unfold wmin_u, le_u. destruct (Z.ltb_spec (uval b) (uval a)); destruct (Z.leb_spec (uval a) (uval b)); auto; lia.
  Qed.
End MinMax.

(** * abs *)
Lemma lxor_ones w (x : word w) : Z.lxor (uval x) (Z.ones (bits w)) = modulus w - 1 - uval x.
Proof.
  pose proof (uval_range x). rewrite Z.lxor_comm.
  assert (E : Z.lxor (Z.ones (bits w)) (uval x) = Z.ldiff (Z.ones (bits w)) (uval x)).
  { apply Z.bits_inj'. intros i Hi. rewrite Z.lxor_spec, Z.ldiff_spec.
    destruct (Z.ltb_spec i (bits w)).
    - rewrite Z.ones_spec_low by lia. now destruct (Z.testbit _ i).
    - rewrite Z.ones_spec_high by (pose proof (bits_nonneg w); lia). rewrite xorb_false_l, andb_false_l.
      destruct (Z.eq_dec (uval x) 0) as [->|]; [apply Z.bits_0|]. apply Z.bits_above_log2; [lia|].
      apply Z.lt_le_trans with (bits w); auto. apply Z.log2_lt_pow2; [lia|]. apply uval_range. }
  rewrite E. rewrite <- Z.sub_nocarry_ldiff.
  - rewrite Z.ones_equiv. fold (modulus w). lia.
  - apply Z.bits_inj'. intros i Hi. rewrite Z.ldiff_spec, Z.bits_0.
    destruct (Z.ltb_spec i (bits w)).
    + rewrite Z.ones_spec_low by lia. apply andb_false_r.
    + destruct (Z.eq_dec (uval x) 0) as [->|]; [now rewrite Z.bits_0|]. rewrite Z.bits_above_log2; auto; [lia|].
      apply Z.lt_le_trans with (bits w); auto. apply Z.log2_lt_pow2; [lia|]. apply uval_range.
Qed.
Lemma wxor_mask w b (x : word w) : wxor x (wmask w b) = if b then mkw w (- uval x - 1) else x.
Proof.
  unfold wxor. rewrite uval_wmask. destruct b.
  - rewrite lxor_ones. apply mkw_eq. symmetry. rewrite <- (Z.mod_add (- uval x - 1) 1) by (pose proof (modulus_pos w); lia).
    f_equal. lia.
  - rewrite Z.lxor_0_r. apply mkw_uval.
Qed.
Lemma wadd_mkw w x y : wadd (mkw w x) (mkw w y) = mkw w (x + y).
Proof. unfold wadd. rewrite !uval_mkw. apply mkw_eq. rewrite Zplus_mod_idemp_l, Zplus_mod_idemp_r. reflexivity. Qed.
Lemma srl_mask w b : (0 < w)%nat -> mkw w (uval (wmask w b) / 2 ^ (bits w - 1)) = mkw w (if b then 1 else 0).
Proof.
  intros H. rewrite uval_wmask. destruct b; [|now rewrite Z.div_0_l by (apply Z.pow_nonzero; unfold bits; lia)].
  f_equal. rewrite Z.ones_equiv. fold (modulus w). pose proof (modulus_even w H) as E. pose proof (half_pow w H) as P.
  pose proof (modulus_pos w). rewrite <- P. symmetry. apply Z.div_unique with (r := modulus w / 2 - 1); lia.
Qed.
Lemma sval_w0 w : (0 < w)%nat -> sval (w0 w) = 0.
Proof.
  intros Hw. unfold sval, to_signed. rewrite uval_w0. destruct (Z.ltb_spec 0 (modulus w / 2)); auto.
  pose proof (modulus_even w Hw). pose proof (modulus_pos w). lia.
Qed.

Lemma abs_epi_pack ssse3 w (xs : list (word w)) : w = 1%nat \/ w = 2%nat \/ w = 4%nat -> length xs = (16 / w)%nat ->
  abs_epi ssse3 w (pack xs) = pack (map (fun a => mkw w (Z.abs (sval a))) xs).
Proof.
  intros Hw3 Hx. assert (Hw : lane_ok w) by (unfold lane_ok; tauto). pose proof (lane_ok_pos w Hw) as Hp.
  unfold abs_epi. destruct ssse3; [unfold mm_abs_epi; now rewrite lift1_pack|].
  assert (N : cmplt_epi w (pack xs) mm_setzero = pack (map (fun a => wmask w (sval a <? 0)) xs)).
  { unfold cmplt_epi. rewrite (setzero_pack w Hw). rewrite lift2_pack by (rewrite ?repeat_length; auto).
    rewrite map2_repeat_r by auto. f_equal. apply map_ext. intros a. now rewrite sval_w0. }
  cbv zeta. rewrite N. rewrite xor_pack by (now rewrite map_length). unfold add_epi.
  assert (S : match w with 1%nat => mm_and (pack (map (fun a => wmask w (sval a <? 0)) xs)) (set1 1 1)
              | _ => srli_epi w (pack (map (fun a => wmask w (sval a <? 0)) xs)) (bits w - 1) end =
              pack (map (fun a => mkw w (if sval a <? 0 then 1 else 0)) xs)).
  { destruct Hw3 as [->|Hw3].
    - unfold set1. rewrite and_pack by (rewrite map_length, repeat_length; auto).
      rewrite map2_repeat_r by (now rewrite map_length). rewrite map_map. f_equal. apply map_ext. intros a.
      rewrite wand_mask. now destruct (sval a <? 0).
    - assert (E : srli_epi w (pack (map (fun a => wmask w (sval a <? 0)) xs)) (bits w - 1) =
                  pack (map (fun a => mkw w (if sval a <? 0 then 1 else 0)) xs)).
      { unfold srli_epi. rewrite lift1_pack by (now rewrite map_length). rewrite map_map. f_equal. apply map_ext.
        intros a. now apply srl_mask. }
      destruct Hw3 as [->| ->]; exact E. }
  rewrite S. rewrite lift2_pack by (rewrite ?map2_length, ?map_length; lia). f_equal.
  clear - Hp. induction xs as [|a xs IH]; cbn; auto. rewrite IH. f_equal.
  rewrite wxor_mask. destruct (Z.ltb_spec (sval a) 0) as [H|H].
  - rewrite wadd_mkw. apply mkw_eq. rewrite Z.abs_neq by lia.
    replace (- uval a - 1 + 1) with (- uval a) by lia.
    rewrite <- sval_mod. rewrite <- (Z.sub_0_l (sval a mod modulus w)). now rewrite Zminus_mod_idemp_r.
  - rewrite Z.abs_eq by lia. apply word_ext. unfold wadd. rewrite !uval_mkw. rewrite Zplus_mod_idemp_r, Z.add_0_r.
    rewrite sval_mod. apply Z.mod_small, uval_range.
Qed.
