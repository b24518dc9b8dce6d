(** Proofs about Model/CpuId. *)
From Coq Require Import ZArith List Bool Lia.
From Verif.Spec Require Import CpuSpec.
From Verif.Model Require Import CpuId.
Import ListNotations.
Local Open Scope Z_scope.

(** ** bits *)
Lemma bit_set_eq r k : 0 <= k -> bit_set r k = Z.testbit r k.
Proof.
  intros K. unfold bit_set. rewrite Z.shiftl_1_l. destruct (Z.testbit r k) eqn:T.
  - apply negb_true_iff, Z.eqb_neq. intros E. assert (B : Z.testbit (Z.land r (2 ^ k)) k = true) by (rewrite Z.land_spec, T, Z.pow2_bits_true by lia; reflexivity).
    rewrite E, Z.bits_0 in B. discriminate B.
  - apply negb_false_iff, Z.eqb_eq. apply Z.bits_inj'. intros i I. rewrite Z.land_spec, Z.bits_0, Z.pow2_bits_eqb by lia. destruct (Z.eqb_spec k i) as [->|]; [rewrite T; reflexivity|apply andb_false_r].
Qed.
Lemma low_field n r : 0 <= n -> Z.land r (2 ^ (n + 1) - 1) = field n 0 r.
Proof. intros N. unfold field. rewrite Z.pow_0_r, Z.div_1_r, Z.sub_0_r. replace (2 ^ (n + 1) - 1) with (Z.ones (n + 1)) by (rewrite Z.ones_equiv; lia). apply Z.land_ones. lia. Qed.
Lemma shifted_field hi lo r : 0 <= lo <= hi -> Z.land (Z.shiftr r lo) (2 ^ (hi - lo + 1) - 1) = field hi lo r.
Proof. intros H. unfold field. rewrite Z.shiftr_div_pow2 by lia. replace (2 ^ (hi - lo + 1) - 1) with (Z.ones (hi - lo + 1)) by (rewrite Z.ones_equiv; lia). apply Z.land_ones. lia. Qed.
Lemma masked_field hi lo j r : 0 <= j <= lo -> lo <= hi ->
  Z.shiftr (Z.land r (Z.shiftl (Z.ones (hi - lo + 1)) lo)) j = field hi lo r * 2 ^ (lo - j).
Proof.
  intros H1 H2. unfold field. rewrite <- (Z.shiftr_div_pow2 r lo), <- Z.land_ones, <- Z.shiftl_mul_pow2 by lia. apply Z.bits_inj'. intros i I.
  rewrite Z.shiftr_spec, Z.land_spec by lia. destruct (Z_lt_dec i (lo - j)).
  - rewrite (Z.shiftl_spec_low (Z.ones _) lo (i + j)) by lia. rewrite (Z.shiftl_spec_low _ (lo - j) i) by lia. apply andb_false_r.
  - rewrite !Z.shiftl_spec by lia. rewrite Z.land_spec, Z.shiftr_spec by lia. f_equal; f_equal; lia.
Qed.
Lemma field_bound hi lo r : 0 <= hi - lo + 1 -> 0 <= field hi lo r < 2 ^ (hi - lo + 1).
Proof. intros H. apply Z.mod_pos_bound. apply Z.pow_pos_nonneg; lia. Qed.
Lemma top_field lo r : 0 <= lo < 32 -> is_register r -> Z.shiftr r lo = field 31 lo r.
Proof.
  intros L (A & B). rewrite Z.shiftr_div_pow2 by lia. unfold field. replace (31 - lo + 1) with (32 - lo) by lia. symmetry. apply Z.mod_small. split; [apply Z.div_pos; [lia|apply Z.pow_pos_nonneg; lia]|].
  apply Z.div_lt_upper_bound; [apply Z.pow_pos_nonneg; lia|]. rewrite <- Z.pow_add_r by lia. replace (lo + (32 - lo)) with 32 by lia. lia.
Qed.
Lemma field_shift hi lo r k : 0 <= k -> 0 <= lo -> field hi lo (Z.shiftr r k) = field (hi + k) (lo + k) r.
Proof. intros K L. unfold field. rewrite Z.shiftr_div_pow2, Z.div_div, <- Z.pow_add_r by (try apply Z.pow_nonzero; try apply Z.pow_pos_nonneg; lia). f_equal; [f_equal; f_equal; lia|f_equal; lia]. Qed.

(** ** features *)
Section P.
  Context (p : processor).
  Lemma has_eq :
    hasSse2 p = has p Sse2 /\ hasSse3 p = has p Sse3 /\ hasSsse3 p = has p Ssse3 /\ hasSse41 p = has p Sse41 /\ hasSse42 p = has p Sse42 /\
    hasAvx p = has p Avx /\ hasAvx2 p = has p Avx2 /\ hasF16c p = has p F16c /\ hasFma4 p = has p Fma4 /\ hasXop p = has p Xop /\
    hasPopcnt p = has p Popcnt /\ hasSse4a p = has p Sse4a /\ hasFma p = has p Fma /\ hasBmi2 p = has p Bmi2.
  Proof. repeat split; apply bit_set_eq; lia. Qed.
  Lemma xgetbv_eq : xgetbvCheck p 6 = Z.testbit (xcr0 p) 1 && Z.testbit (xcr0 p) 2.
  Proof.
    unfold xgetbvCheck, uint. set (x := xcr0 p mod 2 ^ 32). assert (X : forall k, 0 <= k < 32 -> Z.testbit x k = Z.testbit (xcr0 p) k) by (intros k K; apply Z.mod_pow2_bits_low; lia).
    rewrite <- !X by lia. destruct (Z.eqb_spec (Z.land x 6) 6) as [E|E].
    - assert (B : forall k, Z.testbit (Z.land x 6) k = Z.testbit 6 k) by (intros k; now rewrite E).
      pose proof (B 1) as B1. pose proof (B 2) as B2. rewrite Z.land_spec in B1, B2. change (Z.testbit 6 1) with true in B1. change (Z.testbit 6 2) with true in B2. rewrite andb_true_r in B1, B2. now rewrite B1, B2.
    - destruct (Z.testbit x 1) eqn:T1, (Z.testbit x 2) eqn:T2; try reflexivity. elim E. apply Z.bits_inj'. intros i I. rewrite Z.land_spec.
      destruct (Z.eq_dec i 1) as [->|]; [now rewrite T1|]. destruct (Z.eq_dec i 2) as [->|]; [now rewrite T2|].
      replace (Z.testbit 6 i) with false; [apply andb_false_r|]. symmetry. destruct (Z.eq_dec i 0) as [->|]; [reflexivity|].
      apply Z.bits_above_log2; [lia|]. change (Z.log2 6) with 2. lia.
  Qed.
  Lemma os_eq : hasOsxsave p && xgetbvCheck p 6 = os_saves_avx p.
  Proof. unfold os_saves_avx. rewrite xgetbv_eq, <- andb_assoc. f_equal. apply bit_set_eq. lia. Qed.

  (** ** signature *)
  Let s := eax (leaf1 p).
  Lemma family_field : uchar (Z.shiftr (Z.land s 0x00000f00) 8) = field 11 8 s.
  Proof.
    change 0xf00 with (Z.shiftl (Z.ones (11 - 8 + 1)) 8). rewrite masked_field by lia. rewrite Z.sub_diag, Z.pow_0_r, Z.mul_1_r. pose proof (field_bound 11 8 s ltac:(lia)) as B. apply Z.mod_small.
    change (2 ^ (11 - 8 + 1)) with 16 in B. change (2 ^ 8) with 256. lia.
  Qed.
  Lemma model_field : uchar (Z.shiftr (Z.land s 0x000000f0) 4) = field 7 4 s.
  Proof.
    change 0xf0 with (Z.shiftl (Z.ones (7 - 4 + 1)) 4). rewrite masked_field by lia. rewrite Z.sub_diag, Z.pow_0_r, Z.mul_1_r. pose proof (field_bound 7 4 s ltac:(lia)) as B. apply Z.mod_small.
    change (2 ^ (7 - 4 + 1)) with 16 in B. change (2 ^ 8) with 256. lia.
  Qed.
  Lemma family_ext_field : family_ext s = (field 27 20 s * 16) mod 256.
  Proof. unfold family_ext. change 0x0ff00000 with (Z.shiftl (Z.ones (27 - 20 + 1)) 20). rewrite masked_field by lia. reflexivity. Qed.
  Lemma model_ext_field : model_ext s = field 19 16 s * 16.
  Proof.
    unfold model_ext. change 0x000f0000 with (Z.shiftl (Z.ones (19 - 16 + 1)) 16). rewrite masked_field by lia. change (2 ^ (16 - 12)) with 16. pose proof (field_bound 19 16 s ltac:(lia)) as B.
    change (2 ^ (19 - 16 + 1)) with 16 in B. apply Z.mod_small. change (2 ^ 8) with 256. lia.
  Qed.
  Lemma family_model_eq : family_model p =
    let f := field 11 8 s in let m := field 7 4 s in let fe := (field 27 20 s * 16) mod 256 in let me := field 19 16 s * 16 in
    if isAmd p then if f =? 15 then ((f + fe) mod 256, m + me) else (f, m)
    else if f =? 15 then ((f + fe) mod 256, m + me) else if f =? 6 then (f, m + me) else if f =? 11 then ((f + fe) mod 256, m + me) else (f, m).
  Proof.
    unfold family_model. fold s. rewrite family_field, model_field, family_ext_field, model_ext_field. cbv zeta.
    pose proof (field_bound 11 8 s ltac:(lia)) as F. pose proof (field_bound 7 4 s ltac:(lia)) as G. pose proof (field_bound 19 16 s ltac:(lia)) as H.
    change (2 ^ (11 - 8 + 1)) with 16 in F. change (2 ^ (7 - 4 + 1)) with 16 in G. change (2 ^ (19 - 16 + 1)) with 16 in H.
    assert (U : uchar (field 7 4 s + field 19 16 s * 16) = field 7 4 s + field 19 16 s * 16) by (apply Z.mod_small; change (2 ^ 8) with 256; lia). rewrite U. unfold uchar.
    replace (15 <=? field 11 8 s) with (field 11 8 s =? 15); [reflexivity|]. destruct (Z.eqb_spec (field 11 8 s) 15), (Z.leb_spec 15 (field 11 8 s)); auto; lia.
  Qed.
  Lemma mic_eq : field 27 20 s < 16 -> (processorFamily p =? 0xB) && (processorModel p =? 0x1) && isIntel p = xeon_phi p.
  Proof.
    intros E. unfold processorFamily, processorModel. rewrite family_model_eq. cbv zeta. unfold xeon_phi. fold s. change (isIntel p) with (intel p). change (isAmd p) with (amd p).
    pose proof (field_bound 11 8 s ltac:(lia)) as F. pose proof (field_bound 7 4 s ltac:(lia)) as G. pose proof (field_bound 19 16 s ltac:(lia)) as H. pose proof (field_bound 27 20 s ltac:(lia)) as I.
    change (2 ^ (11 - 8 + 1)) with 16 in F. change (2 ^ (7 - 4 + 1)) with 16 in G. change (2 ^ (19 - 16 + 1)) with 16 in H.
    destruct (intel p) eqn:IN; [|rewrite !andb_false_r; reflexivity]. rewrite andb_true_r. cbn [andb].
    assert (NA : amd p = false) by (unfold amd; unfold intel in IN; apply Z.eqb_eq in IN; rewrite IN; reflexivity). rewrite NA.
    rewrite (Z.mod_small (field 27 20 s * 16)) by lia.
    set (f := field 11 8 s) in *. set (m := field 7 4 s) in *. set (me := field 19 16 s) in *. set (fe := field 27 20 s) in *.
    destruct (Z.eqb_spec f 15) as [->|]; [|destruct (Z.eqb_spec f 6) as [->|]; [reflexivity|destruct (Z.eqb_spec f 11) as [->|]]]; cbn [fst snd andb Z.eqb Pos.eqb].
    - rewrite Z.mod_small by lia. destruct (Z.eqb_spec (15 + fe * 16) 11); [lia|]. reflexivity.
    - rewrite Z.mod_small by lia. destruct (Z.eqb_spec (11 + fe * 16) 11), (Z.eqb_spec (m + me * 16) 1), (Z.eqb_spec m 1), (Z.eqb_spec me 0), (Z.eqb_spec fe 0); cbn [andb]; auto; lia.
    - destruct (Z.eqb_spec f 11); [lia|]. reflexivity.
  Qed.

  (** ** caches *)
  (** what interpret does with a byte *)
  Definition effect (d : descriptor) (byte : Z) (c : caches) (b : bool) : caches * bool :=
    match d with
    | Describes L1I k => (put_instruction (cache_size k) (line_size k) (ways k) c, b)
    | Describes l k => (put l (cache_size k) (line_size k) (ways k) c, b)
    | Prefetch n => (put_prefetch n c, b)
    | SeeLeaf4 => (c, true)
    | Other => if byte =? 0x40 then (mkcaches (sizes c) (lines c) (assoc c) (prefetch c) true, b) else (c, b)
    end.
  Definition known (byte : Z) : Prop := 0 <= byte < 256 /\ byte <> 0x1D /\ byte <> 0x24 /\ byte <> 0x30.
  Lemma interpret_effect byte c b : known byte ->
    interpret p byte (c, b) = effect (leaf2_descriptor (processorFamily p) (processorModel p) byte) byte c b.
  Proof.
    intros (R & N1 & N2 & N3). destruct byte as [|q|q]; [reflexivity| |lia].
    do 8 (destruct q as [q|q|]; [| |first [reflexivity|congruence|cbn [interpret leaf2_descriptor]; destruct (_ && _); reflexivity]]); lia.
  Qed.

  Definition run (bytes : list Z) (cb : caches * bool) : caches * bool := fold_left (fun cb b => interpret p b cb) bytes cb.
  Lemma run_app xs ys cb : run (xs ++ ys) cb = run ys (run xs cb).
  Proof. apply fold_left_app. Qed.
  Lemma bit31 r : (Z.land 0x80000000 r =? 0) = negb (Z.testbit r 31).
  Proof. rewrite <- bit_set_eq by lia. unfold bit_set. rewrite negb_involutive. rewrite Z.land_comm. reflexivity. Qed.
  Lemma byte_field k r : 0 <= k -> Z.land (Z.shiftr r k) 0xff = field (k + 7) k r.
  Proof. intros K. rewrite <- (shifted_field (k + 7) k) by lia. f_equal. replace (k + 7 - k + 1) with 8 by lia. reflexivity. Qed.
  Lemma byte_field0 r : Z.land r 0xff = field 7 0 r.
  Proof. exact (low_field 7 r ltac:(lia)). Qed.
  Lemma interpret_register4 r cb : interpret_register p 4 r r cb = run (register_bytes r) cb.
  Proof.
    unfold interpret_register, register_bytes. rewrite bit31. destruct (Z.testbit r 31); [reflexivity|]. cbn [negb interpret_bytes run fold_left].
    rewrite !Z.shiftr_shiftr by lia. rewrite !byte_field by lia. rewrite byte_field0. reflexivity.
  Qed.
  Lemma interpret_register3 r cb : interpret_register p 3 r (Z.shiftr r 8) cb = run (tl (register_bytes r)) cb.
  Proof.
    unfold interpret_register, register_bytes. rewrite bit31. destruct (Z.testbit r 31); [reflexivity|]. cbn [negb interpret_bytes run fold_left tl].
    rewrite !Z.shiftr_shiftr by lia. rewrite !byte_field by lia. reflexivity.
  Qed.
  Lemma interpret_answer_run r cb : interpret_answer p r cb = run (answer_bytes r) cb.
  Proof. unfold interpret_answer, answer_bytes. now rewrite !interpret_register4, interpret_register3, !run_app. Qed.
  Lemma more_answers_run : forall k i cb, more_answers p k i cb = run (flat_map (fun i => answer_bytes (leaf2 p i)) (seq i k)) cb.
  Proof. induction k as [|k IH]; intros i cb; [reflexivity|]. cbn [more_answers seq flat_map]. now rewrite IH, interpret_answer_run, run_app. Qed.
  Lemma leaf2_loop_run c : leaf2_loop p c = if silent (leaf2 p 0) then (c, true) else run (leaf2_bytes p) (c, false).
  Proof.
    unfold leaf2_loop. fold (silent (leaf2 p 0)). destruct (silent (leaf2 p 0)); [reflexivity|]. rewrite more_answers_run, interpret_answer_run, <- run_app. unfold leaf2_bytes. rewrite byte_field0.
    pose proof (field_bound 7 0 (eax (leaf2 p 0)) ltac:(lia)) as B. f_equal.
    replace (Z.to_nat (Z.max 1 (field 7 0 (eax (leaf2 p 0))))) with (S (Z.to_nat (field 7 0 (eax (leaf2 p 0)) - 1))) by lia. reflexivity.
  Qed.

  (** the variables after a list of descriptions *)
  Definition describes2 (byte : Z) : option (level * cache) :=
    match leaf2_descriptor (processorFamily p) (processorModel p) byte with Describes l c => Some (l, c) | _ => None end.
  Definition pick {A} (d : A -> option (level * cache)) (l : level) (o : option cache) (x : A) : option cache :=
    match d x with Some (l', c) => if same_level l l' then Some c else o | None => o end.
  Lemma pick_from {A} (d : A -> option (level * cache)) l : forall xs o, fold_left (pick d l) xs o = match last_cache d l xs with Some c => Some c | None => o end.
  Proof.
    unfold last_cache. change (fun o x => match d x with Some (l', c) => if same_level l l' then Some c else o | None => o end) with (pick d l).
    induction xs as [|x xs IH]; intros o; [reflexivity|]. cbn [fold_left]. rewrite (IH (pick d l o x)), (IH (pick d l None x)). destruct (fold_left (pick d l) xs None); [reflexivity|]. unfold pick.
    destruct (d x) as [[l' c]|]; [destruct (same_level l l')|]; reflexivity.
  Qed.
  (** the variables of a level hold what was found last, or what they held before *)
  Definition holds (l : level) (c0 c : caches) (o : option cache) : Prop :=
    sizes c l = match o with Some k => cache_size k | None => sizes c0 l end /\
    lines c l = match o with Some k => line_size k | None => lines c0 l end /\
    (l = L2 \/ l = L3 -> assoc c l = match o with Some k => ways k | None => assoc c0 l end).
  Lemma run_holds l c0 : forall bytes c b o, Forall known bytes -> holds l c0 c o -> holds l c0 (fst (run bytes (c, b))) (fold_left (pick describes2 l) bytes o).
  Proof.
    induction bytes as [|x xs IH]; intros c b o K H; [exact H|]. inversion K as [|? ? K1 K2]; subst. change (run (x :: xs) (c, b)) with (run xs (interpret p x (c, b))). rewrite interpret_effect by assumption.
    cbn [fold_left]. destruct H as (H1 & H2 & H3). unfold pick at 2, describes2 at 2.
    destruct (leaf2_descriptor (processorFamily p) (processorModel p) x) as [l' k|n| |]; cbn [effect].
    - destruct l'; apply IH; auto; unfold holds, put, put_instruction, set; cbn [sizes lines assoc]; destruct l; cbn [same_level]; auto; split; auto; split; auto; intros [E|E]; discriminate E.
    - apply IH; auto. split; auto.
    - apply IH; auto. split; auto.
    - destruct (x =? 64); apply IH; auto; split; auto.
  Qed.
  Lemma run_flag : forall bytes c b, Forall known bytes -> snd (run bytes (c, b)) = b || existsb (Z.eqb 0xFF) bytes.
  Proof.
    induction bytes as [|x xs IH]; intros c b K; [now rewrite orb_false_r|]. inversion K as [|? ? KX]; subst. change (run (x :: xs) (c, b)) with (run xs (interpret p x (c, b))). rewrite interpret_effect by assumption.
    cbn [existsb]. destruct (Z.eqb_spec 255 x) as [<-|N].
    - cbn [leaf2_descriptor effect]. rewrite IH by assumption. now rewrite orb_true_r.
    - assert (E : exists c', effect (leaf2_descriptor (processorFamily p) (processorModel p) x) x c b = (c', b)).
      { destruct (leaf2_descriptor (processorFamily p) (processorModel p) x) as [l k|n| |] eqn:D; cbn [effect]; [destruct l; eauto|eauto| |destruct (x =? 64); eauto].
        exfalso. clear - D N KX. destruct KX as (R & _). destruct x as [|q|q]; [discriminate D| |lia]. do 8 (destruct q as [q|q|]; [| |first [discriminate D|congruence]]); lia. }
      destruct E as (c' & ->). rewrite IH by assumption. reflexivity.
  Qed.
  Lemma leaf4_fields r : are_registers r -> cache_size (leaf4_cache r) < 2 ^ 31 -> forall l c, pick answer_cache l None r = None /\ sizes (leaf4_answer r c) l = sizes c l /\ lines (leaf4_answer r c) l = lines c l /\ (l = L2 \/ l = L3 -> assoc (leaf4_answer r c) l = assoc c l) \/
    pick answer_cache l None r = Some (leaf4_cache r) /\ sizes (leaf4_answer r c) l = cache_size (leaf4_cache r) /\
    lines (leaf4_answer r c) l = line_size (leaf4_cache r) /\ (l = L2 \/ l = L3 -> assoc (leaf4_answer r c) l = ways (leaf4_cache r)).
  Proof.
    intros (_ & RB & RC & _) SZ l c. unfold leaf4_answer, pick, answer_cache, leaf4_level.
    assert (E1 : Z.land (eax r) 31 = field 4 0 (eax r)) by exact (low_field 4 (eax r) ltac:(lia)). rewrite E1.
    assert (E2 : Z.land (Z.shiftr (eax r) 5) 7 = field 7 5 (eax r)) by exact (shifted_field 7 5 (eax r) ltac:(lia)). rewrite E2.
    assert (E3 : Z.land (ebx r) 0xfff = field 11 0 (ebx r)) by exact (low_field 11 (ebx r) ltac:(lia)). rewrite E3.
    assert (E4 : Z.land (Z.shiftr (ebx r) 12) 0x3ff = field 21 12 (ebx r)) by exact (shifted_field 21 12 (ebx r) ltac:(lia)). rewrite E4.
    assert (E5 : Z.land (Z.shiftr (Z.shiftr (ebx r) 12) 10) 0x3ff = field 31 22 (ebx r)) by (rewrite Z.shiftr_shiftr by lia; exact (shifted_field 31 22 (ebx r) ltac:(lia))). rewrite E5.
    pose proof (field_bound 11 0 (ebx r) ltac:(lia)) as B3. pose proof (field_bound 21 12 (ebx r) ltac:(lia)) as B4. pose proof (field_bound 31 22 (ebx r) ltac:(lia)) as B5.
    change (2 ^ (11 - 0 + 1)) with 4096 in B3. change (2 ^ (21 - 12 + 1)) with 1024 in B4. change (2 ^ (31 - 22 + 1)) with 1024 in B5.
    assert (K : exists k, leaf4_cache r = k /\ cache_size k = uint ((1 + field 31 22 (ebx r)) * (1 + field 21 12 (ebx r)) * (1 + field 11 0 (ebx r)) * uint (1 + ecx r)) /\
      line_size k = ushort (1 + field 11 0 (ebx r)) /\ ways k = 1 + field 31 22 (ebx r)).
    { exists (leaf4_cache r). split; [reflexivity|]. unfold leaf4_cache in *. cbn [cache_size line_size ways] in *. unfold uint, ushort.
      set (x := field 31 22 (ebx r)) in *. set (y := field 21 12 (ebx r)) in *. set (z := field 11 0 (ebx r)) in *. unfold is_register in RC.
      set (P := (x + 1) * (y + 1) * (z + 1)) in *. assert (PP : 1 <= P) by (unfold P; nia). assert (ecx r + 1 < 2 ^ 31) by nia.
      split; [|split; [symmetry; rewrite Z.add_comm; apply Z.mod_small; change (2 ^ 16) with 65536; lia|lia]].
      rewrite (Z.mod_small (1 + ecx r)) by lia. replace ((1 + x) * (1 + y) * (1 + z) * (1 + ecx r)) with (P * (ecx r + 1)) by (unfold P; ring). symmetry. apply Z.mod_small. nia. }
    destruct K as (k & -> & <- & <- & K3). rewrite <- K3.
    pose proof (field_bound 4 0 (eax r) ltac:(lia)) as B1. pose proof (field_bound 7 5 (eax r) ltac:(lia)) as B2. change (2 ^ (4 - 0 + 1)) with 32 in B1. change (2 ^ (7 - 5 + 1)) with 8 in B2.
    set (t := field 4 0 (eax r)) in *. set (cl := field 7 5 (eax r)) in *. clearbody t cl. clear - B1 B2.
    assert (T : t = 1 \/ t = 2 \/ t = 3 \/ (t <> 1 /\ t <> 2 /\ t <> 3)) by lia. assert (C : cl = 1 \/ cl = 2 \/ cl = 3 \/ (cl <> 1 /\ cl <> 2 /\ cl <> 3)) by lia.
    assert (MT : forall (a b d e : caches), t <> 1 /\ t <> 2 /\ t <> 3 -> match t with 1 => a | 2 => b | 3 => d | _ => e end = e).
    { intros a b d e (N1 & N2 & N3). destruct t as [|q|q]; auto. do 2 (destruct q as [q|q|]; try reflexivity; try congruence). }
    assert (MC : forall (a b d e : caches), cl <> 1 /\ cl <> 2 /\ cl <> 3 -> match cl with 1 => a | 2 => b | 3 => d | _ => e end = e).
    { intros a b d e (N1 & N2 & N3). destruct cl as [|q|q]; auto. do 2 (destruct q as [q|q|]; try reflexivity; try congruence). }
    assert (MC1 : forall (a e : caches), cl <> 1 /\ cl <> 2 /\ cl <> 3 -> match cl with 1 => a | _ => e end = e).
    { intros a e (N1 & N2 & N3). destruct cl as [|q|q]; auto. destruct q as [q|q|]; try reflexivity; congruence. }
    assert (NC : cl <> 1 /\ cl <> 2 /\ cl <> 3 -> (cl =? 1) = false /\ (cl =? 2) = false /\ (cl =? 3) = false) by (intros; repeat split; apply Z.eqb_neq; lia).
    assert (NT : t <> 1 /\ t <> 2 /\ t <> 3 -> (t =? 1) = false /\ (t =? 2) = false /\ (t =? 3) = false) by (intros; repeat split; apply Z.eqb_neq; lia).
    destruct T as [->|[->|[->|T]]]; [| | |rewrite (MT _ _ _ _ T); destruct (NT T) as (-> & -> & ->); cbn [orb option_map]; left; auto].
    all: destruct C as [->|[->|[->|C]]]; [| | |rewrite ?(MC _ _ _ _ C), ?(MC1 _ _ C); destruct (NC C) as (-> & -> & ->); cbn [Z.eqb Pos.eqb orb option_map]; left; auto].
    all: destruct l; cbn; solve [left; repeat split; auto; intros [E|E]; discriminate E|right; repeat split; auto; intros [E|E]; discriminate E|left; auto|right; auto].
  Qed.
  Lemma leaf4_holds l c0 : forall rs c o, Forall are_registers rs -> Forall (fun r => field 4 0 (eax r) <> 0 /\ cache_size (leaf4_cache r) < 2 ^ 31) rs -> holds l c0 c o ->
    holds l c0 (leaf4_loop rs c) (fold_left (pick answer_cache l) rs o).
  Proof.
    induction rs as [|r rs IH]; intros c o R F H; [exact H|]. inversion R as [|? ? R1 R2]; inversion F as [|? ? (F1 & F2) F3]; subst. cbn [leaf4_loop fold_left].
    replace (Z.land (eax r) 31) with (field 4 0 (eax r)) by (symmetry; exact (low_field 4 (eax r) ltac:(lia))).
    replace (field 4 0 (eax r) =? 0) with false by (symmetry; apply Z.eqb_neq; lia). apply IH; auto. destruct H as (H1 & H2 & H3).
    assert (PO : pick answer_cache l o r = match pick answer_cache l None r with Some k => Some k | None => o end) by (unfold pick; destruct (answer_cache r) as [[l' k]|]; [destruct (same_level l l')|]; reflexivity).
    rewrite PO. destruct (leaf4_fields r R1 F2 l c) as [(E & A & B & C)|(E & A & B & C)]; rewrite E; unfold holds; rewrite A, B; split; auto; split; auto.
    intros L. rewrite C by exact L. auto.
  Qed.

  Lemma descriptor_eq byte : field 27 20 s < 16 -> describes2 byte = descriptor_cache p byte.
  Proof.
    intros E. unfold describes2, descriptor_cache.
    replace (leaf2_descriptor (display_family p) (display_model p) byte) with (leaf2_descriptor (processorFamily p) (processorModel p) byte); [reflexivity|].
    assert (B : (processorFamily p =? 15) && (processorModel p =? 6) = (display_family p =? 15) && (display_model p =? 6)).
    { unfold processorFamily, processorModel, display_family, display_model. rewrite family_model_eq. cbv zeta. fold s. change (isAmd p) with (amd p).
      pose proof (field_bound 11 8 s ltac:(lia)) as F. pose proof (field_bound 27 20 s ltac:(lia)) as I. change (2 ^ (11 - 8 + 1)) with 16 in F.
      rewrite (Z.mod_small (field 27 20 s * 16)) by lia. set (f := field 11 8 s) in *. set (m := field 7 4 s) in *. set (me := field 19 16 s) in *. set (fe := field 27 20 s) in *.
      destruct (Z.eqb_spec f 15) as [->|N].
      - assert (G : forall a b : Z * Z, fst a = fst b -> snd a = snd b -> a = b) by (intros [] []; cbn; congruence).
        replace (if amd p then ((15 + fe * 16) mod 256, m + me * 16) else ((15 + fe * 16) mod 256, m + me * 16)) with ((15 + fe * 16) mod 256, m + me * 16) by (destruct (amd p); reflexivity).
        cbn [fst snd orb]. rewrite Z.mod_small by lia. rewrite (Z.add_comm m). f_equal. destruct (Z.eqb_spec (15 + fe * 16) 15), (Z.eqb_spec (15 + fe) 15); auto; lia.
      - replace (f =? 15) with false by (symmetry; apply Z.eqb_neq; exact N). cbn [andb orb].
        destruct (amd p); cbn [fst snd negb andb]; [destruct (Z.eqb_spec f 15); [lia|reflexivity]|].
        destruct (Z.eqb_spec f 6) as [->|N6]; cbn [fst snd]; [reflexivity|]. destruct (Z.eqb_spec f 11) as [->|N11]; cbn [fst snd].
        + rewrite Z.mod_small by lia. destruct (Z.eqb_spec (11 + fe * 16) 15); [lia|]. reflexivity.
        + destruct (Z.eqb_spec f 15); [lia|]. reflexivity. }
    unfold leaf2_descriptor. now rewrite B.
  Qed.
  Lemma register_bytes_range r : Forall (fun b => 0 <= b < 256) (register_bytes r).
  Proof. unfold register_bytes. destruct (Z.testbit r 31); repeat constructor; apply field_bound; lia. Qed.
  Lemma leaf2_bytes_range : Forall (fun b => 0 <= b < 256) (leaf2_bytes p).
  Proof.
    apply Forall_forall. intros b I. apply in_flat_map in I. destruct I as (i & _ & I). unfold answer_bytes in I.
    assert (T : forall r, In b (register_bytes r) -> 0 <= b < 256) by (intros r J; pose proof (register_bytes_range r) as F; rewrite Forall_forall in F; auto).
    rewrite !in_app_iff in I. destruct I as [I|[I|[I|I]]]; eauto. apply T with (eax (leaf2 p i)). destruct (register_bytes _); [elim I|right; exact I].
  Qed.
  Lemma last_cache_ext {A} (d d' : A -> option (level * cache)) l xs : (forall x, d x = d' x) -> last_cache d l xs = last_cache d' l xs.
  Proof. intros E. unfold last_cache. generalize (@None cache). induction xs as [|x xs IH]; intros o; [reflexivity|]. cbn [fold_left]. rewrite E. apply IH. Qed.
  (** if leaf 2 is silent, its bytes describe nothing *)
  Lemma silent_bytes l : silent (leaf2 p 0) = true -> last_cache (descriptor_cache p) l (leaf2_bytes p) = None.
  Proof.
    intros S. unfold silent in S. rewrite !andb_true_iff, !Z.eqb_eq in S. destruct S as (((A & B) & C) & D). unfold leaf2_bytes. rewrite A. change (field 7 0 0) with 0. change (Z.to_nat (Z.max 1 0)) with 1%nat. cbn [seq flat_map]. rewrite app_nil_r.
    unfold answer_bytes. rewrite A, B, C, D. reflexivity.
  Qed.
  Lemma init_caches_intel l : a_processor p -> amd p = false -> field 27 20 s < 16 -> Forall (fun b => b <> 0x1D /\ b <> 0x24 /\ b <> 0x30) (leaf2_bytes p) ->
    Forall (fun r => field 4 0 (eax r) <> 0 /\ cache_size (leaf4_cache r) < 2 ^ 31) (leaf4 p) ->
    holds l start (init_caches p) (reported_cache p l).
  Proof.
    intros (_ & _ & _ & _ & _ & _ & _ & R4) NA E K F4. unfold init_caches, reported_cache. change (isAmd p) with (amd p). rewrite NA, leaf2_loop_run.
    assert (KN : Forall known (leaf2_bytes p)).
    { pose proof leaf2_bytes_range as R. rewrite Forall_forall in *. intros b I. split; [apply R; auto|]. apply K. exact I. }
    assert (H0 : holds l start start None) by (repeat split).
    assert (X : forall c c' n, holds l start c c' -> holds l start (put_prefetch n c) c') by (intros c c' n H; exact H).
    destruct (silent (leaf2 p 0)) eqn:S; cbn [orb].
    - pose proof (leaf4_holds l start (leaf4 p) (put_prefetch (if cacheLineSize p =? 0 then 64 else cacheLineSize p) start) None R4 F4 (X _ _ _ H0)) as H.
      rewrite pick_from in H. rewrite silent_bytes by exact S. exact H.
    - pose proof (run_holds l start (leaf2_bytes p) start false None KN H0) as H. pose proof (run_flag (leaf2_bytes p) start false KN) as G. cbn [orb] in G.
      destruct (run (leaf2_bytes p) (start, false)) as [c b]. cbn [fst snd] in H, G. rewrite pick_from in H. rewrite (last_cache_ext describes2 (descriptor_cache p)) in H by (intros; apply descriptor_eq; exact E).
      rewrite <- G. destruct b; [|destruct (last_cache (descriptor_cache p) l (leaf2_bytes p)); exact H].
      pose proof (leaf4_holds l start (leaf4 p) (put_prefetch (if cacheLineSize p =? 0 then 64 else cacheLineSize p) c) _ R4 F4 (X _ _ (if cacheLineSize p =? 0 then 64 else cacheLineSize p) H)) as H4.
      rewrite pick_from in H4. destruct (last_cache answer_cache l (leaf4 p)); [exact H4|]. destruct (last_cache (descriptor_cache p) l (leaf2_bytes p)); exact H4.
  Qed.
End P.

(** ** the flags of a build *)
Lemma runs_on_bits b x :
  runs_on (features b) x = true <->
    (b_sse4a b = true -> Z.testbit x 16 = true) /\ (b_sse4a b && b_xop b = true -> Z.testbit x 14 = true) /\ (b_sse4a b && b_xop b && b_fma4 b = true -> Z.testbit x 13 = true) /\
    (b_popcnt b = true -> Z.testbit x 15 = true) /\ (b_fma b = true -> Z.testbit x 17 = true) /\ (b_bmi2 b = true -> Z.testbit x 19 = true) /\ (b_vex b = true -> Z.testbit x 18 = true).
Proof.
  set (m := Z.land (features b) 0xfffff000).
  assert (E : runs_on (features b) x = true <-> Z.land x m = m) by (unfold runs_on, m; rewrite Z.eqb_eq, Z.land_assoc; reflexivity). rewrite E. clear E.
  assert (S : Z.land x m = m <-> forall k, In k [12; 13; 14; 15; 16; 17; 18; 19] -> Z.testbit m k = true -> Z.testbit x k = true).
  { split.
    - intros H k _ T. rewrite <- H, Z.land_spec in T. apply andb_true_iff in T. apply T.
    - intros H. apply Z.bits_inj'. intros k K. rewrite Z.land_spec. destruct (Z.testbit m k) eqn:T; [|apply andb_false_r]. rewrite (H k); auto.
      assert (KM : In k [12; 13; 14; 15; 16; 17; 18; 19]); [|exact KM].
      assert (L : 12 <= k < 20).
      { destruct (Z_lt_dec k 12).
        - exfalso. unfold m in T. rewrite Z.land_spec in T. apply andb_true_iff in T. destruct T as (_ & T). change 0xfffff000 with (Z.shiftl 0xfffff 12) in T. rewrite Z.shiftl_spec_low in T by lia. discriminate T.
        - split; [lia|]. destruct (Z_lt_dec k 20); [lia|]. exfalso. unfold m in T. rewrite Z.land_spec in T. apply andb_true_iff in T. destruct T as (T & _).
          assert (F : 0 <= features b < 2 ^ 20) by (unfold features; destruct (base b), (b_sse4a b), (b_xop b), (b_fma4 b), (b_popcnt b), (b_fma b), (b_bmi2 b), (b_vex b); vm_compute; split; congruence).
          rewrite Z.bits_above_log2 in T; [discriminate T|lia|]. destruct (Z.eq_dec (features b) 0) as [->|]; [cbn; lia|]. apply Z.lt_le_trans with 20; [apply Z.log2_lt_pow2; lia|lia]. }
      cbn. lia. }
  rewrite S. clear S.
  assert (T : forall k, In k [12; 13; 14; 15; 16; 17; 18; 19] -> Z.testbit m k =
    match k with 13 => b_sse4a b && b_xop b && b_fma4 b | 14 => b_sse4a b && b_xop b | 15 => b_popcnt b | 16 => b_sse4a b | 17 => b_fma b | 18 => b_vex b | 19 => b_bmi2 b | _ => false end).
  { intros k I. unfold m, features. destruct (b_sse4a b), (b_xop b), (b_fma4 b), (b_popcnt b), (b_fma b), (b_bmi2 b), (b_vex b);
    repeat (destruct I as [<-|I]; [destruct (base b); reflexivity|]); elim I. }
  split.
  - intros H. repeat split; intros B; [apply (H 16)|apply (H 14)|apply (H 13)|apply (H 15)|apply (H 17)|apply (H 19)|apply (H 18)]; try (cbn; tauto); rewrite T by (cbn; tauto); exact B.
  - intros (H1 & H2 & H3 & H4 & H5 & H6 & H7) k I. rewrite T by exact I. repeat (destruct I as [<-|I]; [auto; discriminate|]). elim I.
Qed.
