From Coq Require Import ZArith List Bool Lia.
From Verif.Spec Require Import Seq MaskSpec NativeSpec OperandSpec GatherSpec.
From Verif.Model Require Import Mem SimdArray SimdArrayOps BitScan SseMask GatherScatter.
From Verif.Proof Require Import SeqP SimdArrayOpsP SseMaskP.
Import ListNotations.
Local Open Scope Z_scope.

(** * true_indices *)
Fixpoint set_from (o : Z) (m : list bool) : list Z :=
  match m with [] => [] | b :: m' => (if b then [o] else []) ++ set_from (o + 1) m' end.

Lemma filter_map {A B} (f : B -> bool) (g : A -> B) xs : filter f (map g xs) = map g (filter (fun x => f (g x)) xs).
Proof. induction xs; cbn; [reflexivity|]. destruct (f (g a)); cbn; now rewrite IHxs. Qed.

Lemma tab_S {A} n (f : Z -> A) : tab (S n) f = f 0 :: tab n (fun i => f (i + 1)).
Proof.
  unfold tab. cbn [seq map]. f_equal. rewrite <- seq_shift, map_map. apply map_ext. intros i. f_equal. lia.
Qed.
Lemma znth_cons {A} (d : A) x xs i : 0 <= i -> znth d (x :: xs) (i + 1) = znth d xs i.
Proof. intros H. rewrite <- (znth_S d x xs i H). f_equal. Qed.

Lemma set_from_in o m i : In i (set_from o m) <-> o <= i < o + Z.of_nat (length m) /\ znth false m (i - o) = true.
Proof.
  revert o. induction m as [|b m IH]; intros o; cbn [set_from length].
  - cbn. lia.
  - rewrite in_app_iff, IH. destruct (Z.eq_dec i o) as [->|N].
    + rewrite Z.sub_diag. change (znth false (b :: m) 0) with b. destruct b; cbn [In]; [split; [intros _; split; [lia|reflexivity]|auto]|].
      split; [intros [[]|[H _]]; lia|intros [_ H]; discriminate H].
    + assert (E : o + 1 <= i -> (znth false (b :: m) (i - o) = true <-> znth false m (i - (o + 1)) = true)).
      { intros H. rewrite <- (znth_cons false b m (i - (o + 1))) by lia. now replace (i - (o + 1) + 1) with (i - o) by lia. }
      split.
      * intros [H|[H T]]; [exfalso; destruct b; cbn in H; destruct H; auto; lia|]. split; [lia|]. apply E; [lia|exact T].
      * intros [H T]. right. split; [lia|]. apply E; [lia|exact T].
Qed.
Lemma true_indices_in m i : In i (true_indices m) <-> 0 <= i < Z.of_nat (length m) /\ znth false m i = true.
Proof.
  unfold true_indices. rewrite filter_In. unfold tab. rewrite in_map_iff. split.
  - intros [(k & E & H) T]. apply in_seq in H. subst i. lia || (split; [lia|exact T]).
  - intros [H T]. split; [|exact T]. exists (Z.to_nat i). split; [lia|]. apply in_seq. lia.
Qed.
Lemma true_indices_from m : true_indices m = set_from 0 m.
Proof.
  cut (forall o, map (Z.add o) (true_indices m) = set_from o m).
  { intros H. rewrite <- H. rewrite <- (map_id (true_indices m)) at 1. apply map_ext. intros; lia. }
  unfold true_indices.
  induction m as [|b m IH]; intros o; [reflexivity|]. cbn [length]. rewrite tab_S. cbn [filter].
  assert (E : filter (fun i => znth false (b :: m) i) (tab (length m) (fun i => i + 1)) = map (Z.add 1) (filter (fun i => znth false m i) (tab (length m) (fun i => i)))).
  { rewrite <- (map_id (tab (length m) (fun i => i))). unfold tab. rewrite !map_map.
    replace (map (fun i => Z.of_nat i + 1) (seq 0 (length m))) with (map (Z.add 1) (map (fun i => Z.of_nat i) (seq 0 (length m))))
      by (rewrite map_map; apply map_ext; intros; lia).
    rewrite filter_map. f_equal. apply filter_ext_in. intros a Ha. apply in_map_iff in Ha. destruct Ha as (k & <- & _).
    rewrite (Z.add_comm 1). apply znth_cons. lia. }
  rewrite E. cbn [set_from]. rewrite <- (IH (o + 1)).
  change (znth false (b :: m) 0) with b. destruct b; cbn [map app]; rewrite ?map_map; [f_equal; [lia|]|]; apply map_ext; intros; lia.
Qed.

(** * scans *)
Lemma ctz_odd t : 0 <= t -> bit_scan_forward (2 * t + 1) = Some 0.
Proof. intros H. destruct t as [|p|p]; [reflexivity|reflexivity|lia]. Qed.
Lemma ctz_double x k : bit_scan_forward x = Some k -> bit_scan_forward (2 * x) = Some (k + 1).
Proof. destruct x as [|p|p]; cbn [bit_scan_forward]; try discriminate. intros [= <-]. change (2 * Zpos p) with (Zpos p~0). cbn [bit_scan_forward ctz_pos]. now rewrite Z.add_comm. Qed.
Lemma ctz_spec o t : 0 <= o -> 0 <= t -> bit_scan_forward (2 ^ o * (2 * t + 1)) = Some o.
Proof.
  intros Ho Ht. revert o Ho. apply natlike_ind.
  - rewrite Z.mul_1_l. now apply ctz_odd.
  - intros o Ho IH. rewrite Z.pow_succ_r by lia. rewrite <- Z.mul_assoc. apply ctz_double. exact IH.
Qed.
Lemma land_double_odd a b : Z.land (2 * a) (2 * b + 1) = 2 * Z.land a b.
Proof.
  apply Z.bits_inj'. intros n Hn. rewrite Z.land_spec. destruct (Z.eq_dec n 0) as [->|N].
  - now rewrite !Z.testbit_even_0.
  - replace n with (Z.succ (n - 1)) by lia. rewrite !Z.testbit_even_succ, Z.testbit_odd_succ by lia. now rewrite Z.land_spec.
Qed.
Lemma land_odd_double a b : Z.land (2 * a + 1) (2 * b) = 2 * Z.land a b.
Proof. now rewrite Z.land_comm, land_double_odd, Z.land_comm. Qed.
Lemma reset_lsb o t : 0 <= o -> Z.land (2 ^ o * (2 * t + 1)) (2 ^ o * (2 * t + 1) - 1) = 2 ^ (o + 1) * t.
Proof.
  revert o. apply natlike_ind.
  - rewrite Z.mul_1_l. replace (2 * t + 1 - 1) with (2 * t) by lia. rewrite land_odd_double, Z.land_diag. cbn. lia.
  - intros o Ho IH. rewrite Z.pow_succ_r by lia. rewrite <- Z.mul_assoc.
    set (x := 2 ^ o * (2 * t + 1)) in *. replace (2 * x - 1) with (2 * (x - 1) + 1) by lia.
    rewrite land_double_odd, IH. replace (Z.succ o + 1) with (Z.succ (o + 1)) by lia. rewrite Z.pow_succ_r by lia. lia.
Qed.

Lemma where_loop_ok : forall m o fuel, 0 <= o -> o + Z.of_nat (length m) <= 64 -> (length m <= fuel)%nat ->
  where_loop fuel (it_make (2 ^ o * to_int_spec m)) = Some (set_from o m).
Proof.
  induction m as [|b m IH]; intros o fuel Ho Hn Hf.
  - cbn [to_int_spec set_from]. rewrite Z.mul_0_r. destruct fuel; reflexivity.
  - cbn [length] in *. pose proof (to_int_bound m) as B. destruct b; cbn [to_int_spec set_from app].
    + destruct fuel as [|fuel]; [lia|].
      replace (1 + 2 * to_int_spec m) with (2 * to_int_spec m + 1) by lia.
      set (t := to_int_spec m) in *. cbn [where_loop].
      assert (P : 0 < 2 ^ o) by (apply Z.pow_pos_nonneg; lia).
      assert (X : 0 < 2 ^ o * (2 * t + 1) < 2 ^ 64).
      { split; [nia|]. assert (2 * t + 1 < 2 ^ Z.of_nat (S (length m))).
        { rewrite Nat2Z.inj_succ, Z.pow_succ_r by lia. lia. }
        apply Z.lt_le_trans with (2 ^ o * 2 ^ Z.of_nat (S (length m))); [nia|].
        rewrite <- Z.pow_add_r by lia. apply Z.pow_le_mono_r; lia. }
      unfold it_eq, where_end, it_make. cbn [it_mask it_bit].
      destruct (Z.eqb_spec (2 ^ o * (2 * t + 1)) 0) as [E|_]; [lia|].
      rewrite ctz_spec by lia. unfold it_next. cbn [it_mask]. rewrite Z.mod_small by lia. rewrite reset_lsb by lia.
      rewrite (IH (o + 1) fuel) by lia. reflexivity.
    + replace (2 ^ o * (0 + 2 * to_int_spec m)) with (2 ^ (o + 1) * to_int_spec m) by (rewrite Z.pow_add_r by lia; lia).
      rewrite (IH (o + 1) fuel) by lia. reflexivity.
Qed.

Lemma int_small v : 0 <= v < 2 ^ 31 -> int_to_size_t v = v.
Proof. intros H. unfold int_to_size_t. destruct (Z.ltb_spec v (2 ^ 31)); lia. Qed.

Lemma where_ok m : (length m <= 31)%nat -> where_indices (to_int_spec m) = Some (true_indices m).
Proof.
  intros H. unfold where_indices, where_begin. pose proof (to_int_bound m) as B.
  assert (2 ^ Z.of_nat (length m) <= 2 ^ 31) by (apply Z.pow_le_mono_r; lia).
  rewrite int_small by lia. rewrite <- (Z.mul_1_l (to_int_spec m)). change 1 with (2 ^ 0).
  rewrite where_loop_ok by lia. now rewrite true_indices_from.
Qed.

(** * bit scan loop *)
Lemma ctz_nonneg p : 0 <= ctz_pos p.
Proof. induction p; cbn [ctz_pos]; lia. Qed.
Lemma ctz_testbit p : Z.testbit (Zpos p) (ctz_pos p) = true.
Proof.
  induction p as [p IH|p IH|]; try reflexivity. cbn [ctz_pos].
  change (Zpos p~0) with (2 * Zpos p). rewrite Z.add_comm. change (ctz_pos p + 1) with (Z.succ (ctz_pos p)).
  rewrite Z.testbit_even_succ; [exact IH|]. apply ctz_nonneg.
Qed.
Lemma ldiff_pow2_testbit x i k : 0 <= i -> 0 <= k -> Z.testbit (bit_reset x i) k = Z.testbit x k && negb (k =? i).
Proof.
  intros Hi Hk. unfold bit_reset. rewrite Z.ldiff_spec, Z.pow2_bits_eqb by lia. now rewrite (Z.eqb_sym i k).
Qed.
Lemma bit_reset_nonneg x i : 0 <= x -> 0 <= bit_reset x i.
Proof. intros H. unfold bit_reset. apply Z.ldiff_nonneg. now left. Qed.

Lemma high_lt x k : 0 <= k -> 0 <= x -> (forall i, k <= i -> Z.testbit x i = false) -> x < 2 ^ k.
Proof.
  intros Hk Hx H. destruct (Z.eq_dec x 0) as [->|N]; [apply Z.pow_pos_nonneg; lia|].
  apply Z.log2_lt_pow2; [lia|]. destruct (Z.lt_ge_cases (Z.log2 x) k) as [|G]; [assumption|].
  specialize (H _ G). rewrite Z.bit_log2 in H by lia. discriminate.
Qed.

Fixpoint bit_scan_trace (fuel : nat) (bits : Z) : option (list Z) :=
  if bits <=? 0 then Some []
  else match fuel with
       | O => None
       | S fuel' =>
           i <-- bit_scan_forward bits;
           j <-- bit_scan_reverse bits;
           option_map (fun l => i :: j :: l) (bit_scan_trace fuel' (bit_reset (bit_reset bits i) j))
       end.

Lemma bit_scan_trace_ok fuel : forall bits, 0 <= bits < 2 ^ Z.of_nat fuel ->
  exists l, bit_scan_trace fuel bits = Some l /\ forall i, In i l <-> 0 <= i /\ Z.testbit bits i = true.
Proof.
  induction fuel as [|fuel IH]; intros bits H; unfold bit_scan_trace; fold bit_scan_trace.
  - assert (bits = 0) by (cbn in H; lia). subst. exists []. split; [reflexivity|]. intros i. rewrite Z.testbit_0_l. cbn. intuition discriminate.
  - destruct (Z.leb_spec bits 0).
    + assert (bits = 0) by lia. subst. exists []. split; [reflexivity|]. intros i. rewrite Z.testbit_0_l. cbn. intuition discriminate.
    + destruct bits as [|p|p]; try lia. cbn [bit_scan_forward bit_scan_reverse obind].
      set (x := Zpos p) in *. set (a := ctz_pos p). set (b := Z.log2 x).
      assert (Ha : 0 <= a) by apply ctz_nonneg. assert (Hb : 0 <= b) by apply Z.log2_nonneg.
      assert (TB : forall k, 0 <= k -> Z.testbit (bit_reset (bit_reset x a) b) k = Z.testbit x k && negb (k =? a) && negb (k =? b)).
      { intros k Hk. rewrite !ldiff_pow2_testbit by lia. reflexivity. }
      destruct (IH (bit_reset (bit_reset x a) b)) as (l & El & Hl).
      { split; [apply bit_reset_nonneg, bit_reset_nonneg; lia|].
        apply high_lt; [lia|apply bit_reset_nonneg, bit_reset_nonneg; lia|]. intros i Hi. rewrite TB by lia.
        assert (Lb : b < Z.of_nat (S fuel)) by (apply Z.log2_lt_pow2; lia).
        destruct (Z.eqb_spec i b); [now rewrite andb_false_r|]. rewrite Z.bits_above_log2; [reflexivity|lia|]. fold b. lia. }
      rewrite El. cbn [option_map]. eexists. split; [reflexivity|]. intros i. cbn [In]. rewrite Hl.
      assert (Ta : Z.testbit x a = true) by apply ctz_testbit.
      assert (Tb : Z.testbit x b = true) by (apply Z.bit_log2; lia).
      split.
      * intros [<-|[<-|[Hi T]]]; auto. split; [lia|]. rewrite TB in T by lia. now destruct (Z.testbit x i).
      * intros [Hi T]. destruct (Z.eq_dec a i) as [->|Na]; [auto|]. destruct (Z.eq_dec b i) as [->|Nb]; [auto|].
        right. right. split; [lia|]. rewrite TB, T by lia. destruct (Z.eqb_spec i a), (Z.eqb_spec i b); cbn; congruence || reflexivity.
Qed.

Section Lanes.
  Context {S : Type} (act : Z -> S -> option S).
  Lemma act_list_app l l' s : act_list act (l ++ l') s = obind (act_list act l s) (fun s' => act_list act l' s').
  Proof. revert s. induction l as [|i l IH]; intros s; cbn; [reflexivity|]. destruct (act i s); cbn; auto. Qed.

  Lemma bit_scan_loop_trace fuel : forall bits s l, bit_scan_trace fuel bits = Some l ->
    bit_scan_loop act fuel bits s = act_list act l s.
  Proof.
    induction fuel as [|fuel IH]; intros bits s l; unfold bit_scan_trace, bit_scan_loop; fold bit_scan_trace; fold (bit_scan_loop act); destruct (bits <=? 0).
    - intros [= <-]. reflexivity.
    - discriminate.
    - intros [= <-]. reflexivity.
    - destruct (bit_scan_forward bits) as [i|]; [|discriminate]. cbn [obind]. destruct (bit_scan_reverse bits) as [j|]; [|discriminate]. cbn [obind].
      destruct (bit_scan_trace fuel _) as [l'|] eqn:E; [|discriminate]. cbn [option_map]. intros [= <-]. cbn [act_list].
      destruct (act i s) as [s1|]; [|reflexivity]. cbn [obind]. destruct (act j s1) as [s2|]; [|reflexivity]. cbn [obind]. now apply IH.
  Qed.

  Lemma simple_loop_trace : forall mask i s, simple_loop act i mask s = act_list act (set_from i mask) s.
  Proof.
    induction mask as [|b mask IH]; intros i s; [reflexivity|]. cbn [simple_loop set_from]. destruct b; cbn [app act_list obind].
    - destruct (act i s); cbn [obind]; auto.
    - apply IH.
  Qed.

  Fixpoint popcnt_trace (c : nat) (bits high : Z) : option (list Z) :=
    match c with
    | O => Some []
    | 1%nat => option_map (fun l => [l]) (bit_scan_forward bits)
    | Datatypes.S c' =>
        if Nat.odd c then
          low <-- bit_scan_forward bits;
          option_map (cons low) (popcnt_trace c' (Z.lxor bits (Z.lor high (Z.shiftl 1 low))) high)
        else
          h <-- bit_scan_reverse bits;
          option_map (cons h) (popcnt_trace c' bits (Z.shiftl 1 h))
    end.
  Lemma popcnt_trace_SS c bits high : popcnt_trace (Datatypes.S (Datatypes.S c)) bits high =
    if Nat.odd (Datatypes.S (Datatypes.S c)) then
      low <-- bit_scan_forward bits;
      option_map (cons low) (popcnt_trace (Datatypes.S c) (Z.lxor bits (Z.lor high (Z.shiftl 1 low))) high)
    else
      h <-- bit_scan_reverse bits;
      option_map (cons h) (popcnt_trace (Datatypes.S c) bits (Z.shiftl 1 h)).
  Proof. reflexivity. Qed.
  Lemma popcnt_cases_SS c bits high s : popcnt_cases act (Datatypes.S (Datatypes.S c)) bits high s =
    if Nat.odd (Datatypes.S (Datatypes.S c)) then
      low <-- bit_scan_forward bits;
      s' <-- act low s;
      popcnt_cases act (Datatypes.S c) (Z.lxor bits (Z.lor high (Z.shiftl 1 low))) high s'
    else
      h <-- bit_scan_reverse bits;
      s' <-- act h s;
      popcnt_cases act (Datatypes.S c) bits (Z.shiftl 1 h) s'.
  Proof. reflexivity. Qed.
  Lemma popcnt_cases_trace : forall c bits high s l, popcnt_trace c bits high = Some l -> popcnt_cases act c bits high s = act_list act l s.
  Proof.
    induction c as [|c IH]; intros bits high s l; [intros [= <-]; reflexivity|]. destruct c as [|c].
    - cbn. destruct (bit_scan_forward bits) as [i|]; [|discriminate]. intros [= <-]. cbn. now destruct (act i s).
    - rewrite popcnt_trace_SS, popcnt_cases_SS. destruct (Nat.odd _).
      + destruct (bit_scan_forward bits) as [i|]; [|discriminate]. cbn [obind].
        destruct (popcnt_trace (Datatypes.S c) (Z.lxor bits (Z.lor high (Z.shiftl 1 i))) high) as [l'|] eqn:E; [|discriminate]. intros [= <-]. cbn [act_list].
        destruct (act i s); cbn [obind]; [|reflexivity]. now apply IH.
      + destruct (bit_scan_reverse bits) as [i|]; [|discriminate]. cbn [obind].
        destruct (popcnt_trace (Datatypes.S c) bits (Z.shiftl 1 i)) as [l'|] eqn:E; [|discriminate]. intros [= <-]. cbn [act_list].
        destruct (act i s); cbn [obind]; [|reflexivity]. now apply IH.
  Qed.
End Lanes.

(** popcnt: the trace is a list of exactly the set entries, without duplicates; all 2^n masks *)
Definition same_set (n : nat) (f : Z -> bool) (l : list Z) : bool :=
  forallb (fun i => (0 <=? i) && (i <? Z.of_nat n) && f i) l &&
  forallb (fun i => implb (f i) (existsb (Z.eqb i) l)) (tab n (fun i => i)).
Lemma same_set_ok n f l : same_set n f l = true -> forall i, In i l <-> 0 <= i < Z.of_nat n /\ f i = true.
Proof.
  unfold same_set. rewrite andb_true_iff, !forallb_forall. intros [A B] i. split.
  - intros H. apply A in H. rewrite !andb_true_iff in H. lia || (destruct H as [[H1 H2] H3]; split; [lia|exact H3]).
  - intros [H T]. specialize (B i). rewrite T in B. cbn [implb] in B. assert (I : In i (tab n (fun i => i))).
    { unfold tab. apply in_map_iff. exists (Z.to_nat i). split; [lia|]. apply in_seq. lia. }
    specialize (B I). apply existsb_exists in B. destruct B as (x & X & E). apply Z.eqb_eq in E. now subst.
Qed.
Definition popcnt_of (hw : bool) (n : nat) (v : Z) : Z :=
  match n with 16%nat => popcnt16 hw v | 8%nat => popcnt8 hw v | _ => popcnt4 hw v end.
Definition pop_check (hw : bool) (n : nat) (m : list bool) : bool :=
  let v := to_int_spec m in
  let c := popcnt_of hw n v in
  if c =? Z.of_nat n then forallb (fun b => b) m
  else match popcnt_trace (Z.to_nat c) v 0 with
       | Some l => same_set n (znth false m) l
       | None => false
       end.
Lemma pop_check_ok hw n m : (n = 2 \/ n = 4 \/ n = 8 \/ n = 16)%nat -> length m = n -> pop_check hw n m = true.
Proof.
  intros Hn L. destruct Hn as [->|[->|[->| ->]]]; revert m L; apply mask_check; destruct hw; vm_compute; reflexivity.
Qed.
