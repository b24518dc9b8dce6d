(** Proofs about the SSE masks.  A native mask has 2, 4 or 8 entries: its queries are decided for all
    2^n values of the mask. *)
From Coq Require Import ZArith List Bool Lia.
From Verif.Spec Require Import VectorSpec Seq NativeSpec MaskSpec.
From Verif.Model Require Import Word Fp SseReg SseMove SortNet SseInt SimdArray SimdArrayOps ScalarVec Mem SseMask.
From Verif.Proof Require Import SeqP WordP SseMoveP SseIntP SseEmulP ScalarVecP.
Import ListNotations.
Local Open Scope Z_scope.

Fixpoint all_masks (n : nat) : list (list bool) :=
  match n with
  | O => [[]]
  | S n' => flat_map (fun m => [true :: m; false :: m]) (all_masks n')
  end.
Lemma all_masks_in : forall m, In m (all_masks (length m)).
Proof.
  induction m as [|b m IH]; cbn; auto. apply in_flat_map. exists m. split; auto. destruct b; cbn; auto.
Qed.
Lemma mask_check (P : list bool -> bool) n : forallb P (all_masks n) = true -> forall m, length m = n -> P m = true.
Proof. intros H m <-. rewrite forallb_forall in H. apply H, all_masks_in. Qed.

Lemma bool_check (f g : list bool -> bool) n :
  forallb (fun m => Bool.eqb (f m) (g m)) (all_masks n) = true -> forall m, length m = n -> f m = g m.
Proof. intros H m L. apply eqb_prop. now apply (mask_check (fun m => Bool.eqb (f m) (g m)) n). Qed.
Lemma z_check (f g : list bool -> Z) n :
  forallb (fun m => f m =? g m) (all_masks n) = true -> forall m, length m = n -> f m = g m.
Proof. intros H m L. apply Z.eqb_eq. now apply (mask_check (fun m => f m =? g m) n). Qed.
Lemma zl_check (f g : list bool -> list Z) n :
  forallb (fun m => zlist_eqb (f m) (g m)) (all_masks n) = true -> forall m, length m = n -> f m = g m.
Proof. intros H m L. apply zlist_eqb_eq. now apply (mask_check (fun m => zlist_eqb (f m) (g m)) n). Qed.

Ltac by_width H := destruct H as [->|[->| ->]].

Lemma m_full_ok ptest w m : width_ok w -> length m = (16 / w)%nat -> m_full ptest (mask_reg w m) = forallb (fun b => b) m.
Proof.
  intros Hw L. by_width Hw; revert m L; apply bool_check; destruct ptest; vm_compute; reflexivity.
Qed.
Lemma m_empty_ok ptest w m : width_ok w -> length m = (16 / w)%nat -> m_empty ptest (mask_reg w m) = forallb negb m.
Proof.
  intros Hw L. by_width Hw; revert m L; apply bool_check; destruct ptest; vm_compute; reflexivity.
Qed.
Lemma m_not_empty_ok ptest w m : width_ok w -> length m = (16 / w)%nat -> m_not_empty ptest (mask_reg w m) = negb (forallb negb m).
Proof.
  intros Hw L. by_width Hw; revert m L; apply bool_check; destruct ptest; vm_compute; reflexivity.
Qed.
Lemma m_mix_ok ptest w m : width_ok w -> length m = (16 / w)%nat ->
  m_mix ptest (mask_reg w m) = negb (forallb negb m) && negb (forallb (fun b => b) m).
Proof.
  intros Hw L. by_width Hw; revert m L; apply bool_check; destruct ptest; vm_compute; reflexivity.
Qed.
Lemma m_to_int_ok w m : width_ok w -> length m = (16 / w)%nat -> m_to_int w (mask_reg w m) = to_int_spec m.
Proof. intros Hw L. by_width Hw; revert m L; apply z_check; vm_compute; reflexivity. Qed.
Lemma m_count_ok hw w m : width_ok w -> length m = (16 / w)%nat -> m_count hw w (mask_reg w m) = count_spec m.
Proof. intros Hw L. by_width Hw; revert m L; apply z_check; destruct hw; vm_compute; reflexivity. Qed.

(** the first set entry *)
Fixpoint first_idx (m : list bool) : option Z :=
  match m with [] => None | b :: m' => if b then Some 0 else option_map Z.succ (first_idx m') end.
Definition optz_eqb (a b : option Z) : bool :=
  match a, b with Some x, Some y => x =? y | None, None => true | _, _ => false end.
Lemma optz_eqb_eq a b : optz_eqb a b = true -> a = b.
Proof. destruct a, b; cbn; intros H; try discriminate H; auto. apply Z.eqb_eq in H. now subst. Qed.
Lemma m_first_idx w m : width_ok w -> length m = (16 / w)%nat -> m_first w (mask_reg w m) = first_idx m.
Proof.
  intros Hw L. apply optz_eqb_eq. by_width Hw; revert m L;
    apply (mask_check (fun m => optz_eqb (m_first _ (mask_reg _ m)) (first_idx m))); vm_compute; reflexivity.
Qed.
Lemma znth_S {A} (d : A) x xs i : 0 <= i -> znth d (x :: xs) (Z.succ i) = znth d xs i.
Proof.
  intros H. unfold znth. rewrite Z2Nat.inj_succ by lia. cbn [length nth].
  destruct (Z.leb_spec 0 i), (Z.leb_spec 0 (Z.succ i)), (Z.ltb_spec i (Z.of_nat (length xs))), (Z.ltb_spec (Z.succ i) (Z.of_nat (S (length xs)))); cbn; auto; lia.
Qed.
Lemma first_idx_spec m : match first_idx m with
  | Some i => 0 <= i < Z.of_nat (length m) /\ first_one_spec m i
  | None => none_spec m end.
Proof.
  induction m as [|b m IH]; [intros b []|]. cbn [first_idx]. destruct b.
  - cbn [length]. split; [lia|]. split; [reflexivity|]. intros; lia.
  - destruct (first_idx m) as [i|]; cbn [option_map length].
    + destruct IH as [R [H1 H2]]. repeat split; try lia.
      * rewrite znth_S by lia. auto.
      * intros j Hj. destruct (Z.eqb_spec j 0) as [->|]; [reflexivity|].
        replace j with (Z.succ (j - 1)) by lia. rewrite znth_S by lia. apply H2. lia.
    + intros b [<-|H]; auto.
Qed.
Lemma m_first_ok w m : width_ok w -> length m = (16 / w)%nat ->
  match m_first w (mask_reg w m) with
  | Some i => 0 <= i < Z.of_nat (length m) /\ first_one_spec m i
  | None => none_spec m end.
Proof. intros. rewrite m_first_idx by auto. apply first_idx_spec. Qed.

(** equality: the tested bits determine the mask *)
Lemma bits_to_int_inj : forall a b, length a = length b -> bits_to_int a = bits_to_int b -> a = b.
Proof.
  induction a as [|x a IH]; intros [|y b] L H; cbn in L; try discriminate L; auto. cbn [bits_to_int] in H.
  assert (x = y) as -> by (destruct x, y; cbn [Z.b2z] in H; auto; lia). f_equal. apply IH; lia.
Qed.
Lemma flat_repeat_inj w : (0 < w)%nat -> forall a b : list bool, length a = length b ->
  flat_map (fun x => repeat x w) a = flat_map (fun x => repeat x w) b -> a = b.
Proof.
  intros Hw. induction a as [|x a IH]; intros [|y b] L H; cbn in L; try discriminate L; auto.
  cbn [flat_map] in H. destruct w as [|w]; [lia|]. cbn [repeat app] in H. injection H as -> H.
  apply app_inv_head in H. f_equal. apply IH; auto.
Qed.
Fixpoint blist_eqb (a b : list bool) : bool :=
  match a, b with
  | [], [] => true
  | x :: a', y :: b' => Bool.eqb x y && blist_eqb a' b'
  | _, _ => false
  end.
Lemma blist_eqb_eq : forall a b, blist_eqb a b = true -> a = b.
Proof.
  induction a; intros [|y b] H; cbn in H; try discriminate H; auto. apply andb_prop in H. destruct H as [H1 H2].
  apply eqb_prop in H1. subst. f_equal; auto.
Qed.
Lemma sign_bytes w m : width_ok w -> length m = (16 / w)%nat ->
  map negative (lanes 1 (mask_reg w m)) = flat_map (fun b => repeat b w) m.
Proof.
  intros Hw L. apply blist_eqb_eq. by_width Hw; revert m L;
    apply (mask_check (fun m => blist_eqb (map negative (lanes 1 (mask_reg _ m))) (flat_map (fun b => repeat b _) m)));
    vm_compute; reflexivity.
Qed.
Lemma sign_lanes w m : width_ok w -> length m = (16 / w)%nat -> map negative (lanes w (mask_reg w m)) = m.
Proof.
  intros Hw L. unfold mask_reg. rewrite lanes_pack by (now rewrite map_length). rewrite map_map.
  rewrite <- (map_id m) at 2. apply map_ext. intros b. by_width Hw; destruct b; reflexivity.
Qed.
Lemma m_eq_ok w a b : width_ok w -> length a = (16 / w)%nat -> length b = (16 / w)%nat ->
  (m_eq w (mask_reg w a) (mask_reg w b) = true <-> a = b).
Proof.
  intros Hw La Lb. split; [|intros ->; unfold m_eq; by_width Hw; apply Z.eqb_refl].
  intros H. by_width Hw; unfold m_eq in H; apply Z.eqb_eq in H; unfold movemask in H; apply bits_to_int_inj in H.
  all: try (rewrite !map_length, !lanes_length; reflexivity).
  - rewrite !sign_bytes in H by (unfold width_ok; auto). apply flat_repeat_inj in H; auto; lia.
  - rewrite !sign_lanes in H by (unfold width_ok; auto). auto.
  - rewrite !sign_lanes in H by (unfold width_ok; auto). auto.
Qed.
Lemma m_neq_ok w a b : width_ok w -> length a = (16 / w)%nat -> length b = (16 / w)%nat ->
  (m_neq w (mask_reg w a) (mask_reg w b) = true <-> a <> b).
Proof.
  intros Hw La Lb. rewrite <- (m_eq_ok w a b) by auto.
  assert (E : m_neq w (mask_reg w a) (mask_reg w b) = negb (m_eq w (mask_reg w a) (mask_reg w b))) by (by_width Hw; reflexivity).
  rewrite E. destruct (m_eq w (mask_reg w a) (mask_reg w b)); cbn; split; intros; congruence.
Qed.

(** the native masks of the build *)
Lemma forallb_all m : forallb (fun b : bool => b) m = true <-> all_spec m.
Proof. rewrite forallb_forall. unfold all_spec. reflexivity. Qed.
Lemma forallb_none m : forallb negb m = true <-> none_spec m.
Proof.
  rewrite forallb_forall. unfold none_spec. split; intros H b Hb; specialize (H b Hb); destruct b; auto; discriminate H.
Qed.
Lemma sse_masks ptest hw w : width_ok w -> native_masks_ok (sse_native w) (sse_mask_ops ptest hw w).
Proof.
  intros Hw.
  assert (C : forall m : list bool, sse_native w (length m) = true -> scalar_native (length m) = true \/ (length m <> 1%nat /\ length m = (16 / w)%nat)).
  { intros m H. unfold sse_native in H. unfold scalar_native. destruct (Nat.eqb_spec (length m) 1); auto. right.
    split; auto. now apply Nat.eqb_eq. }
  assert (S : forall X (m : list bool) (s v : X), scalar_native (length m) = true -> (if Nat.eqb (length m) 1 then s else v) = s).
  { intros X m s v H. unfold scalar_native in H. now rewrite H. }
  assert (V : forall X (m : list bool) (s v : X), length m <> 1%nat -> (if Nat.eqb (length m) 1 then s else v) = v).
  { intros X m s v H. now apply Nat.eqb_neq in H as ->. }
  pose proof scalar_masks as [s1 s2 s3 s4 s5 s6 s7 s8].
  split; intros m; [..|intros m'|intros m']; intros H; destruct (C m H) as [H1|[H1 H2]];
    cbn [k_full k_not_empty k_empty k_to_int k_count k_first k_eq k_neq sse_mask_ops];
    rewrite ?(S _ m) by auto; rewrite ?(V _ m) by auto; auto.
  - rewrite m_full_ok by auto. apply forallb_all.
  - rewrite m_not_empty_ok by auto. rewrite <- forallb_none. destruct (forallb negb m); cbn; split; intros; congruence.
  - rewrite m_empty_ok by auto. apply forallb_none.
  - now apply m_to_int_ok.
  - now apply m_count_ok.
  - intros HN. pose proof (m_first_ok w m Hw H2) as F. destruct (m_first w (mask_reg w m)); [apply F|contradiction].
  - intros L. apply m_eq_ok; auto. now rewrite <- L.
  - intros L. apply m_neq_ok; auto. now rewrite <- L.
Qed.

(** logic *)
Lemma mreg_len w m : width_ok w -> length m = (16 / w)%nat -> length (map (wmask w) m) = (16 / w)%nat.
Proof. intros _ L. now rewrite map_length. Qed.
Lemma ones_word w : 0 <= Z.ones (bits w) < modulus w.
Proof. rewrite Z.ones_equiv. fold (modulus w). pose proof (modulus_pos w). lia. Qed.
Lemma wxor_masks w a b : wxor (wmask w a) (wmask w b) = wmask w (xorb a b).
Proof.
  apply word_ext. unfold wxor. rewrite uval_mkw, !uval_wmask. pose proof (ones_word w). pose proof (modulus_pos w).
  destruct a, b; cbn [xorb]; rewrite ?Z.lxor_nilpotent, ?Z.lxor_0_l, ?Z.lxor_0_r; apply Z.mod_small; lia.
Qed.
Lemma setallone_pack w : lane_ok w -> setallone = pack (repeat (wmask w true) (16 / w)).
Proof. intros [->|[->|[->| ->]]]; vm_compute; reflexivity. Qed.
Lemma width_lane w : width_ok w -> lane_ok w.
Proof. unfold width_ok, lane_ok. tauto. Qed.

Lemma m_not_ok w m : width_ok w -> length m = (16 / w)%nat -> m_not (mask_reg w m) = mask_reg w (map negb m).
Proof.
  intros Hw L. unfold m_not, mask_reg. rewrite (setallone_pack w) by now apply width_lane.
  rewrite andnot_pack by (now rewrite map_length, repeat_length). f_equal.
  rewrite map2_repeat_r by (now rewrite map_length). rewrite !map_map. apply map_ext. intros b.
  rewrite wandnot_mask. now destruct b.
Qed.
Lemma m_and_ok w a b : length a = length b -> m_and (mask_reg w a) (mask_reg w b) = mask_reg w (map2 andb a b).
Proof.
  intros L. unfold m_and, mask_reg. rewrite and_pack by (now rewrite !map_length). f_equal.
  rewrite map2_map, map_map2. apply map2_ext. intros. apply wand_masks.
Qed.
Lemma m_or_ok w a b : length a = length b -> m_or (mask_reg w a) (mask_reg w b) = mask_reg w (map2 orb a b).
Proof.
  intros L. unfold m_or, mask_reg. rewrite or_pack by (now rewrite !map_length). f_equal.
  rewrite map2_map, map_map2. apply map2_ext. intros. apply wor_masks.
Qed.
Lemma m_xor_ok w a b : length a = length b -> m_xor (mask_reg w a) (mask_reg w b) = mask_reg w (map2 xorb a b).
Proof.
  intros L. unfold m_xor, mask_reg. rewrite xor_pack by (now rewrite !map_length). f_equal.
  rewrite map2_map, map_map2. apply map2_ext. intros. apply wxor_masks.
Qed.

(** entries *)
Lemma two_check (P : Z -> list bool -> bool) k n : forallb (fun j => forallb (P j) (all_masks n)) (tab k (fun z => z)) = true ->
  forall j m, 0 <= j < Z.of_nat k -> length m = n -> P j m = true.
Proof. intros H j m Hj L. apply (range_check _ _ H) in Hj. now apply (mask_check _ _ Hj). Qed.
Lemma m_get_ok w m i : width_ok w -> length m = (16 / w)%nat -> 0 <= i < Z.of_nat (16 / w) -> m_get w (mask_reg w m) i = znth false m i.
Proof.
  intros Hw L Hi. apply eqb_prop.
  by_width Hw; match goal with |- Bool.eqb (m_get ?w _ _) _ = _ =>
    revert i m Hi L; apply (two_check (fun i m => Bool.eqb (m_get w (mask_reg w m) i) (znth false m i)) (16 / w) (16 / w)) end;
    vm_compute; reflexivity.
Qed.
Lemma list_set_map {A B} (f : A -> B) : forall xs i v, list_set (map f xs) i (f v) = map f (list_set xs i v).
Proof. induction xs; intros [|i] v; cbn; auto. now rewrite IHxs. Qed.
Lemma m_set_ok w m i v : width_ok w -> length m = (16 / w)%nat -> m_set w (mask_reg w m) i v = mask_reg w (list_set m (Z.to_nat i) v).
Proof.
  intros Hw L. unfold m_set, mask_reg. rewrite lanes_pack by (now rewrite map_length). now rewrite list_set_map.
Qed.
Lemma m_generate_ok w gen : m_generate w gen = mask_reg w (tab (16 / w) gen).
Proof. unfold m_generate, mask_reg, tab. now rewrite map_map. Qed.
Lemma m_broadcast_ok w b : width_ok w -> m_broadcast b = mask_reg w (repeat b (16 / w)).
Proof. intros Hw. by_width Hw; destruct b; vm_compute; reflexivity. Qed.

(** memory *)
Lemma m_store_ok w m : width_ok w -> length m = (16 / w)%nat -> m_store w (mask_reg w m) = map Z.b2z m.
Proof. intros Hw L. by_width Hw; revert m L; apply zl_check; vm_compute; reflexivity. Qed.
Lemma m_load_ok w m : width_ok w -> length m = (16 / w)%nat -> m_load w (map Z.b2z m) = mask_reg w m.
Proof. intros Hw L. by_width Hw; revert m L; apply zl_check; vm_compute; reflexivity. Qed.

(** shifted *)
Lemma tab_repeat {A} n (x : A) : tab n (fun _ => x) = repeat x n.
Proof. unfold tab. generalize 0%nat. induction n; intros; cbn; auto. now rewrite IHn. Qed.
Definition opt_zl_eqb (a b : option (list Z)) : bool := match a, b with Some x, Some y => zlist_eqb x y | None, None => true | _, _ => false end.
Lemma opt_zl_eqb_eq a b : opt_zl_eqb a b = true -> a = b.
Proof. destruct a, b; cbn; intros H; try discriminate H; auto. apply zlist_eqb_eq in H. now subst. Qed.
Lemma m_shifted_ok w m k : width_ok w -> length m = (16 / w)%nat -> - 2 ^ 31 <= k * Z.of_nat w < 2 ^ 31 ->
  m_shifted w (mask_reg w m) k = Some (mask_reg w (shift_spec false m k)).
Proof.
  intros Hw L Hk.
  destruct (Z_lt_le_dec k (- 9)) as [F|F]; [|destruct (Z_lt_le_dec 9 k) as [G|G]].
  1, 2: assert (Q : shift_spec false m k = repeat false (16 / w)) by
    (unfold shift_spec; rewrite <- (tab_repeat (16 / w) false), L; apply tab_ext; intros i Hi; apply znth_out; rewrite L;
     by_width Hw; [change (16 / 2)%nat with 8%nat in *|change (16 / 4)%nat with 4%nat in *|change (16 / 8)%nat with 2%nat in *]; lia).
  1, 2: rewrite Q, <- (m_broadcast_ok w false) by auto; unfold m_shifted, m_broadcast;
    destruct (Z.ltb_spec (k * Z.of_nat w) (- 2 ^ 31)); [lia|]; destruct (Z.leb_spec (2 ^ 31) (k * Z.of_nat w)); [lia|];
    destruct (Z.leb_spec (-16) (k * Z.of_nat w)); destruct (Z.leb_spec (k * Z.of_nat w) 16); cbn [orb andb]; auto; by_width Hw; lia.
  apply opt_zl_eqb_eq. clear Hk. replace k with ((k + 9) - 9) by lia. assert (R : 0 <= k + 9 < Z.of_nat 19) by lia. clear F G.
  remember (k + 9) as j. clear Heqj k.
  by_width Hw; match goal with |- opt_zl_eqb (m_shifted ?w _ _) _ = _ =>
    revert j m R L; apply (two_check (fun j m => opt_zl_eqb (m_shifted w (mask_reg w m) (j - 9)) (Some (mask_reg w (shift_spec false m (j - 9))))) 19 (16 / w)) end;
    vm_compute; reflexivity.
Qed.

(** conversion to masks with another number of entries *)
Lemma mask_cast_ok from to m : In from [2; 4; 8]%nat -> In to [2; 4; 8]%nat -> length m = from ->
  mask_cast from to (mask_reg (16 / from) m) = Some (mask_reg (16 / to) (cast_spec to m)).
Proof.
  intros Hf Ht L. apply opt_zl_eqb_eq. cbn [In] in Hf, Ht.
  destruct Hf as [<-|[<-|[<-|[]]]], Ht as [<-|[<-|[<-|[]]]];
  match goal with |- opt_zl_eqb (mask_cast ?a ?b _) _ = _ => revert m L;
  apply (mask_check (fun m => opt_zl_eqb (mask_cast a b (mask_reg (16 / a) m)) (Some (mask_reg (16 / b) (cast_spec b m)))) a) end; vm_compute; reflexivity.
Qed.

(** popcnt of every 4, 8 and 16 bit value *)
Lemma popcnt4_ok z : 0 <= z < 2 ^ 4 -> popcnt4 false z = mm_popcnt_u32 z.
Proof. intros H. apply Z.eqb_eq. apply (range_check (fun z => popcnt4 false z =? mm_popcnt_u32 z) 16); [vm_compute; reflexivity|lia]. Qed.
Lemma popcnt8_ok z : 0 <= z < 2 ^ 8 -> popcnt8 false z = mm_popcnt_u32 z.
Proof. intros H. apply Z.eqb_eq. apply (range_check (fun z => popcnt8 false z =? mm_popcnt_u32 z) 256); [vm_compute; reflexivity|lia]. Qed.
