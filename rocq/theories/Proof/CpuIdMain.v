(** the feature tests of Vc/support.h and Vc::CpuId (proofs). *)
From Coq Require Import ZArith List Bool Lia.
From Verif.Spec Require Import CpuSpec.
From Verif.Model Require Import CpuId.
Import ListNotations.
Local Open Scope Z_scope.
From Verif.Proof Require Import CpuIdP.

Lemma supported_main p i : cumulative p -> field 27 20 (eax (leaf1 p)) < 16 \/ i <> MICImpl -> isImplementationSupported p i = runs p i.
Proof.
  intros (C1 & C2 & C3 & C4 & C5 & C6) M. pose proof (has_eq p) as (E1 & E2 & E3 & E4 & E5 & E6 & E7 & _). pose proof (os_eq p) as OS.
  destruct i; cbn [isImplementationSupported runs sets_of forallb]; rewrite ?E1, ?E2, ?E3, ?E4, ?E5, ?E6, ?E7; try reflexivity.
  all: try (unfold usable; cbn [needs_avx_state implb]; rewrite ?andb_true_r).
  all: try solve [destruct (has p Sse2), (has p Sse3), (has p Ssse3), (has p Sse41), (has p Sse42); cbn in *; try reflexivity; exfalso; intuition discriminate].
  - rewrite <- OS. destruct (hasOsxsave p), (xgetbvCheck p 6); cbn [implb andb]; rewrite ?andb_true_r, ?andb_false_r; try reflexivity;
      destruct (has p Sse2), (has p Sse3), (has p Ssse3), (has p Sse41), (has p Sse42), (has p Avx); cbn in *; try reflexivity; exfalso; intuition discriminate.
  - rewrite <- OS. destruct (hasOsxsave p), (xgetbvCheck p 6); cbn [implb andb]; rewrite ?andb_true_r, ?andb_false_r; try reflexivity;
      destruct (has p Sse2), (has p Sse3), (has p Ssse3), (has p Sse41), (has p Sse42), (has p Avx), (has p Avx2); cbn in *; try reflexivity; exfalso; intuition discriminate.
  - destruct M as [M|M]; [|congruence]. exact (mic_eq p M).
Qed.
Lemma extra_flags p : forall k, In k [12; 13; 14; 15; 16; 17; 18; 19] -> Z.testbit (extraInstructionsSupported p) k =
  match k with 12 => hasF16c p | 13 => hasFma4 p | 14 => hasXop p | 15 => hasPopcnt p | 16 => hasSse4a p | 17 => hasFma p | 18 => hasOsxsave p && hasAvx p && xgetbvCheck p 6 | _ => hasBmi2 p end.
Proof.
  intros k I. unfold extraInstructionsSupported. destruct (hasF16c p), (hasFma4 p), (hasXop p), (hasPopcnt p), (hasSse4a p), (hasFma p), (hasBmi2 p), (hasOsxsave p && hasAvx p && xgetbvCheck p 6);
  repeat (destruct I as [<-|I]; [reflexivity|]); elim I.
Qed.

Lemma C62_supported_main :
  forall p impl, cumulative p -> field 27 20 (eax (leaf1 p)) < 16 \/ impl <> MICImpl ->
    isImplementationSupported p impl = runs p impl.
Proof.
  intros p impl C M. exact (supported_main p impl C M).
Qed.

Lemma C62_best_main :
  forall p, cumulative p -> field 27 20 (eax (leaf1 p)) < 16 ->
    runs p (bestImplementationSupported p) = true /\
    forall impl, runs p impl = true -> rank impl <= rank (bestImplementationSupported p).
Proof.
  intros p C M. assert (S : forall i, isImplementationSupported p i = runs p i) by (intros i; apply supported_main; auto).
  setoid_rewrite <- S. unfold bestImplementationSupported. pose proof (has_eq p) as (E1 & E2 & E3 & E4 & E5 & E6 & E7 & _). destruct C as (C1 & C2 & C3 & C4 & C5 & C6).
  assert (MIC : isImplementationSupported p MICImpl = (processorFamily p =? 0xB) && (processorModel p =? 0x1) && isIntel p) by reflexivity. rewrite <- MIC.
  destruct (isImplementationSupported p MICImpl) eqn:EM; [split; [exact EM|]; intros [] _; cbn; lia|]. rewrite <- E1, <- E2, <- E3, <- E4, <- E5, <- E6, <- E7 in *.
  destruct (hasSse2 p) eqn:H2; cbn [negb].
  2:{ split; [reflexivity|]. intros [] H; cbn [isImplementationSupported] in *; try (cbn; lia); try congruence; exfalso; rewrite ?andb_true_iff in H; intuition congruence. }
  destruct (hasSse3 p) eqn:H3; cbn [negb].
  2:{ split; [exact H2|]. intros [] H; cbn [isImplementationSupported] in *; try (cbn; lia); try congruence; exfalso; rewrite ?andb_true_iff in H; intuition congruence. }
  destruct (hasSsse3 p) eqn:HS3; cbn [negb].
  2:{ split; [exact H3|]. intros [] H; cbn [isImplementationSupported] in *; try (cbn; lia); try congruence; exfalso; rewrite ?andb_true_iff in H; intuition congruence. }
  destruct (hasSse41 p) eqn:H41; cbn [negb].
  2:{ split; [exact HS3|]. intros [] H; cbn [isImplementationSupported] in *; try (cbn; lia); try congruence; exfalso; rewrite ?andb_true_iff in H; intuition congruence. }
  destruct (hasSse42 p) eqn:H42; cbn [negb].
  2:{ split; [exact H41|]. intros [] H; cbn [isImplementationSupported] in *; try (cbn; lia); try congruence; exfalso; rewrite ?andb_true_iff in H; intuition congruence. }
  destruct (hasAvx p && hasOsxsave p && xgetbvCheck p 6) eqn:HA.
  - rewrite !andb_true_iff in HA. destruct HA as ((A1 & A2) & A3). destruct (hasAvx2 p) eqn:HA2; cbn [negb].
    + split; [cbn [isImplementationSupported]; now rewrite A2, HA2, A3|]. intros [] H; cbn [isImplementationSupported] in *; try (cbn; lia); congruence.
    + split; [cbn [isImplementationSupported]; now rewrite A1, A2, A3|]. intros [] H; cbn [isImplementationSupported] in *; try (cbn; lia); try congruence. rewrite HA2, andb_false_r in H. discriminate H.
  - split; [exact H42|]. intros [] H; cbn [isImplementationSupported] in *; try (cbn; lia); try congruence; exfalso; rewrite !andb_true_iff in H.
    + destruct H as ((A1 & A2) & A3). rewrite A1, A2, A3 in HA. discriminate HA.
    + destruct H as ((A1 & A2) & A3). rewrite A1, (C1 A2), A3 in HA. discriminate HA.
Qed.

Lemma C62_current_partial_main :
  forall p b, cumulative p -> base b <> MICImpl -> (b_fma4 b = true -> b_xop b = true) -> (b_xop b = true -> b_sse4a b = true) -> b_f16c b = false ->
    (b_fma b || b_fma4 b || b_xop b = true -> b_vex b = true) ->
    currentImplementationSupported p b = true <-> forallb (usable p) (sets_of (base b) ++ extras b) = true.
Proof.
  intros p b C M F4 X NF V. unfold currentImplementationSupported. rewrite (supported_main p (base b) C (or_intror M)).
  assert (RB : runs p (base b) = forallb (usable p) (sets_of (base b))) by (destruct (base b); try reflexivity; congruence). rewrite RB, forallb_app, !andb_true_iff.
  assert (G : runs_on (features b) (extraInstructionsSupported p) = true <-> forallb (usable p) (extras b) = true); [|tauto].
  pose proof (has_eq p) as (_ & _ & _ & _ & _ & E6 & _ & _ & E9 & E10 & E11 & E12 & E13 & E14). pose proof (os_eq p) as OS. pose proof (extra_flags p) as EF.
  unfold extras. rewrite NF. set (x := extraInstructionsSupported p) in *. clearbody x.
  assert (T12 : Z.testbit x 12 = hasF16c p) by (apply (EF 12); cbn; tauto).
  assert (T13 : Z.testbit x 13 = has p Fma4) by (rewrite <- E9; apply (EF 13); cbn; tauto).
  assert (T14 : Z.testbit x 14 = has p Xop) by (rewrite <- E10; apply (EF 14); cbn; tauto).
  assert (T15 : Z.testbit x 15 = has p Popcnt) by (rewrite <- E11; apply (EF 15); cbn; tauto).
  assert (T16 : Z.testbit x 16 = has p Sse4a) by (rewrite <- E12; apply (EF 16); cbn; tauto).
  assert (T17 : Z.testbit x 17 = has p Fma) by (rewrite <- E13; apply (EF 17); cbn; tauto).
  assert (T18 : Z.testbit x 18 = has p Avx && os_saves_avx p) by (rewrite <- E6, <- OS; rewrite (EF 18) by (cbn; tauto); destruct (hasOsxsave p), (hasAvx p), (xgetbvCheck p 6); reflexivity).
  assert (T19 : Z.testbit x 19 = has p Bmi2) by (rewrite <- E14; apply (EF 19); cbn; tauto).
  clear EF. rewrite !forallb_app, !andb_true_iff.
  assert (BITS : runs_on (features b) x = true <->
    (b_sse4a b = true -> Z.testbit x 16 = true) /\ (b_sse4a b && b_xop b = true -> Z.testbit x 14 = true) /\ (b_sse4a b && b_xop b && b_fma4 b = true -> Z.testbit x 13 = true) /\
    (b_popcnt b = true -> Z.testbit x 15 = true) /\ (b_fma b = true -> Z.testbit x 17 = true) /\ (b_bmi2 b = true -> Z.testbit x 19 = true) /\ (b_vex b = true -> Z.testbit x 18 = true)).
  { apply runs_on_bits. }
  rewrite BITS. clear BITS. rewrite T13, T14, T15, T16, T17, T18, T19. clear T12 T13 T14 T15 T16 T17 T18 T19 x.
  destruct b as [bs b1 b2 b3 b4 b5 b6 b7 b8]; cbn [b_sse4a b_xop b_fma4 b_popcnt b_fma b_bmi2 b_f16c b_vex] in *. subst b7. unfold usable.
  clear - F4 X V.
  destruct b1, b2, b3; cbn [andb orb] in *; try (exfalso; intuition discriminate);
  destruct b4, b5, b6, b8; cbn [forallb needs_avx_state implb andb orb] in *; rewrite ?andb_true_r; try (exfalso; intuition discriminate);
    rewrite ?andb_true_iff; clear F4 X V;
    generalize (has p Fma4) (has p Xop) (has p Popcnt) (has p Sse4a) (has p Fma) (has p Avx) (has p Bmi2) (os_saves_avx p); intros; intuition (try discriminate).
Qed.

Lemma C62_current_refuted_main :
  forall fma4 f16c, fma4 || f16c = true -> exists p, cumulative p /\
    let b := mkbuild AVXImpl true false fma4 true false false f16c true in
    currentImplementationSupported p b = true /\ forallb (usable p) (extras b) = false.
Proof.
  intros fma4 f16c H. exists (mkprocessor (mkregs 13 0x68747541 0x444D4163 0x69746E65) (mkregs 0x600F12 0x100800 0x1E98220B 0x178BFBFF) no_registers (mkregs 0 0 0x40 0) no_registers no_registers (fun _ => no_registers) [] 7).
  split; [repeat split; intros _; reflexivity|]. destruct fma4, f16c; try discriminate H; split; vm_compute; reflexivity.
Qed.

Lemma C62_extra_refuted_main :
  exists p, cumulative p /\ Z.testbit (extraInstructionsSupported p) 17 = true /\ usable p Fma = false.
Proof.
  exists (mkprocessor (mkregs 13 0x756E6547 0x6C65746E 0x49656E69) (mkregs 0x306C3 0x100800 0x7FFAFBFF 0xBFEBFBFF) (mkregs 0 0x2FBB 0 0) no_registers no_registers no_registers (fun _ => no_registers) [] 3).
  split; [repeat split; intros _; reflexivity|]. split; vm_compute; reflexivity.
Qed.

Lemma C63_signature_partial_main :
  forall p, field 27 20 (eax (leaf1 p)) = 0 -> field 11 8 (eax (leaf1 p)) <> 11 ->
    processorFamily p = display_family p /\ processorModel p = display_model p /\
    cacheLineSize p = 8 * field 15 8 (ebx (leaf1 p)) /\ logicalProcessors p = field 23 16 (ebx (leaf1 p)).
Proof.
  intros p E N. unfold processorFamily, processorModel, display_family, display_model. rewrite family_model_eq. cbv zeta. change (isAmd p) with (amd p). rewrite E.
  pose proof (field_bound 11 8 (eax (leaf1 p)) ltac:(lia)) as F. change (2 ^ (11 - 8 + 1)) with 16 in F. set (f := field 11 8 (eax (leaf1 p))) in *.
  change ((0 * 16) mod 256) with 0. rewrite ?Z.add_0_r, ?(Z.mod_small f) by lia.
  split; [destruct (amd p), (f =? 15), (f =? 6), (f =? 11); reflexivity|].
  split; [destruct (amd p); destruct (Z.eqb_spec f 15), (Z.eqb_spec f 6), (Z.eqb_spec f 11); cbn [fst snd negb andb orb]; lia|].
  unfold cacheLineSize, logicalProcessors, ushort. rewrite (byte_field p 8) by lia. rewrite Z.shiftr_shiftr by lia. change (8 + 8) with 16. rewrite (byte_field p 16) by lia.
  pose proof (field_bound 15 8 (ebx (leaf1 p)) ltac:(lia)) as G. change (2 ^ (15 - 8 + 1)) with 256 in G. change (8 + 7) with 15. split; [|reflexivity].
  rewrite Z.mod_small; [lia|]. change (2 ^ 16) with 65536. lia.
Qed.

Lemma C63_family_refuted_main :
  forall p, field 11 8 (eax (leaf1 p)) = 15 -> field 27 20 (eax (leaf1 p)) <> 0 -> processorFamily p <> display_family p.
Proof.
  intros p F E. unfold processorFamily, display_family. rewrite family_model_eq. cbv zeta. rewrite F. cbn [Z.eqb Pos.eqb].
  pose proof (field_bound 27 20 (eax (leaf1 p)) ltac:(lia)) as B. change (2 ^ (27 - 20 + 1)) with 256 in B. set (e := field 27 20 (eax (leaf1 p))) in *.
  replace (fst (if isAmd p then ((15 + (e * 16) mod 256) mod 256, field 7 4 (eax (leaf1 p)) + field 19 16 (eax (leaf1 p)) * 16)
                else ((15 + (e * 16) mod 256) mod 256, field 7 4 (eax (leaf1 p)) + field 19 16 (eax (leaf1 p)) * 16))) with ((15 + (e * 16) mod 256) mod 256) by (destruct (isAmd p); reflexivity).
  assert (M : (e * 16) mod 256 = 16 * (e mod 16)) by (replace (e * 16) with (16 * e) by ring; change 256 with (16 * 16); apply Zmult_mod_distr_l).
  rewrite M. pose proof (Z.mod_pos_bound e 16 ltac:(lia)). pose proof (Z.div_mod e 16 ltac:(lia)). rewrite Z.mod_small by lia. lia.
Qed.

Lemma C64_caches_partial_main :
  forall p l, a_processor p -> amd p = false -> field 27 20 (eax (leaf1 p)) < 16 ->
    Forall (fun b => b <> 0x1D /\ b <> 0x24 /\ b <> 0x30) (leaf2_bytes p) ->
    Forall (fun r => field 4 0 (eax r) <> 0 /\ cache_size (leaf4_cache r) < 2 ^ 31) (leaf4 p) ->
    match reported_cache p l with
    | Some c => sizes (init_caches p) l = cache_size c /\ lines (init_caches p) l = line_size c /\ (l = L2 \/ l = L3 -> assoc (init_caches p) l = ways c)
    | None => sizes (init_caches p) l = 0 /\ lines (init_caches p) l = 0 /\ (l = L2 \/ l = L3 -> assoc (init_caches p) l = 0)
    end.
Proof.
  intros p l A NA E K F. pose proof (init_caches_intel p l A NA E K F) as H. unfold holds in H. cbn [start sizes lines assoc] in H. destruct (reported_cache p l); exact H.
Qed.

Lemma C64_descriptor_refuted_main :
  forall byte, byte = 0x1D \/ byte = 0x24 \/ byte = 0x30 -> exists p l c, a_processor p /\ amd p = false /\ In byte (leaf2_bytes p) /\ leaf4 p = [] /\
    reported_cache p l = Some c /\ sizes (init_caches p) l <> cache_size c.
Proof.
  intros byte H. exists (mkprocessor (mkregs 13 0x756E6547 0x6C65746E 0x49656E69) (mkregs 0x306C3 0x100800 0 0) no_registers no_registers no_registers no_registers (fun _ => mkregs (1 + 256 * byte) 0 0 0) [] 7).
  assert (N : are_registers no_registers) by (repeat split; cbn; lia).
  exists (if byte =? 0x30 then L1I else L2), (mkcache (if byte =? 0x30 then 32 * K else if byte =? 0x1D then 128 * K else M) 64 (if byte =? 0x30 then 8 else if byte =? 0x1D then 2 else 16)).
  destruct H as [->|[->| ->]].
  all: split; [repeat (split; [first [exact N|repeat split; cbn; lia|intros i; repeat split; cbn; lia]|]); constructor|].
  all: split; [reflexivity|]; split; [vm_compute; auto|]; split; [reflexivity|]; split; [vm_compute; reflexivity|vm_compute; congruence].
Qed.

Lemma C64_l1_associativity_refuted_main :
  exists p c, a_processor p /\ amd p = false /\ Forall (fun b => b <> 0x1D /\ b <> 0x24 /\ b <> 0x30) (leaf2_bytes p) /\
    reported_cache p L1D = Some c /\ assoc (init_caches p) L1D <> ways c.
Proof.
  exists (mkprocessor (mkregs 13 0x756E6547 0x6C65746E 0x49656E69) (mkregs 0x306C3 0x100800 0 0) no_registers no_registers no_registers no_registers (fun _ => mkregs 0x00060A01 0 0 0) [] 7), (mkcache (8 * K) 32 2).
  assert (N : are_registers no_registers) by (repeat split; cbn; lia).
  split; [repeat (split; [first [exact N|repeat split; cbn; lia|intros i; repeat split; cbn; lia]|]); constructor|].
  split; [reflexivity|]. split; [vm_compute; repeat constructor; congruence|]. split; [vm_compute; reflexivity|vm_compute; congruence].
Qed.

Lemma C64_amd_partial_main :
  forall p, a_processor p -> amd p = true ->
    let c5 := ecx (leaf80000005 p) in let d5 := edx (leaf80000005 p) in let c6 := ecx (leaf80000006 p) in let d6 := edx (leaf80000006 p) in
    let c := init_caches p in
    (sizes c L1D = field 31 24 c5 * K /\ lines c L1D = field 7 0 c5 /\ assoc c L1D = field 23 16 c5) /\
    (sizes c L1I = field 31 24 d5 * K /\ lines c L1I = field 7 0 d5) /\
    (sizes c L2 = field 31 16 c6 * K /\ lines c L2 = field 7 0 c6 /\ forall w, amd_ways (field 15 12 c6) = Some w -> assoc c L2 = w) /\
    (sizes c L3 = (field 31 18 d6 * 512 * K) mod 2 ^ 32 /\ lines c L3 = field 7 0 d6).
Proof.
  intros p (_ & _ & _ & _ & (_ & _ & R1 & R2) & (_ & _ & R3 & R4) & _) AM. cbv zeta. unfold init_caches. change (isAmd p) with (amd p). rewrite AM. cbn [sizes lines assoc put put_instruction4 put_prefetch set same_level start].
  rewrite !(top_field 24) by (try lia; assumption). rewrite (top_field 16 (ecx (leaf80000006 p))) by (try lia; assumption). rewrite (top_field 18) by (try lia; assumption). rewrite (byte_field p 16) by lia. change (16 + 7) with 23. rewrite !(byte_field0 p).
  unfold uint, K.
  pose proof (field_bound 31 24 (ecx (leaf80000005 p)) ltac:(lia)) as B1. pose proof (field_bound 31 24 (edx (leaf80000005 p)) ltac:(lia)) as B2. pose proof (field_bound 31 16 (ecx (leaf80000006 p)) ltac:(lia)) as B3.
  change (2 ^ (31 - 24 + 1)) with 256 in B1, B2. change (2 ^ (31 - 16 + 1)) with 65536 in B3. change (2 ^ 32) with 4294967296.
  split; [split; [apply Z.mod_small; lia|split; reflexivity]|]. split; [split; [apply Z.mod_small; lia|reflexivity]|].
  split; [split; [apply Z.mod_small; lia|split; [reflexivity|]]|split; reflexivity].
  intros w W. replace (Z.land (Z.shiftr (ecx (leaf80000006 p)) 12) 15) with (field 15 12 (ecx (leaf80000006 p))) by (symmetry; exact (shifted_field 15 12 (ecx (leaf80000006 p)) ltac:(lia))).
  pose proof (field_bound 15 12 (ecx (leaf80000006 p)) ltac:(lia)) as B4. change (2 ^ (15 - 12 + 1)) with 16 in B4. set (k := field 15 12 (ecx (leaf80000006 p))) in *. clearbody k. clear - W B4.
  destruct k as [|q|q]; [injection W as <-; reflexivity| |lia]. do 4 (destruct q as [q|q|]; try lia; try discriminate W; try (injection W as <-; reflexivity)).
Qed.

Lemma C64_amd_l3_refuted_main :
  forall p, a_processor p -> amd p = true -> assoc (init_caches p) L3 = assoc (init_caches p) L2 /\
  exists p', a_processor p' /\ amd p' = true /\ amd_ways (field 15 12 (edx (leaf80000006 p'))) = Some 16 /\ assoc (init_caches p') L3 = 8.
Proof.
  intros p A AM. split; [unfold init_caches; change (isAmd p) with (amd p); rewrite AM; reflexivity|].
  exists (mkprocessor (mkregs 13 0x68747541 0x444D4163 0x69746E65) (mkregs 0x870F10 0x100800 0 0) no_registers no_registers (mkregs 0 0 0x20080140 0x20080140) (mkregs 0 0 0x2006140 0x1008140) (fun _ => no_registers) [] 7).
  assert (N : are_registers no_registers) by (repeat split; cbn; lia).
  split; [repeat (split; [first [exact N|repeat split; cbn; lia|intros i; repeat split; cbn; lia]|]); constructor|]. split; [reflexivity|]. split; vm_compute; reflexivity.
Qed.
