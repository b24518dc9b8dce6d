(** the feature tests of Vc/support.h and Vc::CpuId *)
From Coq Require Import ZArith List Bool Lia.
From Verif.Spec Require Import CpuSpec.
From Verif.Model Require Import CpuId.
Import ListNotations.
Local Open Scope Z_scope.
From Verif.Proof Require CpuIdMain.

(** C62: isImplementationSupported(impl) tells whether a program may use the instructions of the implementation: the processor
reports all the instruction sets the implementation uses, and for AVX and AVX2 the operating system saves the AVX registers.
For every answer of the processor that respects the documented order of the instruction sets (for the Xeon Phi: with an
extended family below 16). *)
Theorem C62_supported :
  forall p impl, cumulative p -> field 27 20 (eax (leaf1 p)) < 16 \/ impl <> MICImpl ->
    isImplementationSupported p impl = runs p impl.
Proof. exact CpuIdMain.C62_supported_main. Qed.
Print Assumptions C62_supported.

Example C62_supported_ex :
  let p := mkprocessor (mkregs 13 0x756E6547 0x6C65746E 0x49656E69) (mkregs 0x206A7 0x100800 0x17BAE3FF 0xBFEBFBFF) no_registers no_registers no_registers no_registers (fun _ => no_registers) [] in
  map (fun x => map (isImplementationSupported (p x)) [SSE2Impl; SSE42Impl; AVXImpl; AVX2Impl]) [7; 3] = [[true; true; false; false]; [true; true; false; false]] /\
  isImplementationSupported (mkprocessor (leaf0 (p 7)) (mkregs 0x206A7 0x100800 0x1FBAE3FF 0xBFEBFBFF) no_registers no_registers no_registers no_registers (fun _ => no_registers) [] 7) AVXImpl = true.
Proof.
  split; vm_compute; reflexivity.
Qed.

(** C62: bestImplementationSupported() is an implementation the program may use, and no better one can be used. *)
Theorem C62_best :
  forall p, cumulative p -> field 27 20 (eax (leaf1 p)) < 16 ->
    runs p (bestImplementationSupported p) = true /\
    forall impl, runs p impl = true -> rank impl <= rank (bestImplementationSupported p).
Proof. exact CpuIdMain.C62_best_main. Qed.
Print Assumptions C62_best.

Example C62_best_ex :
  let p := mkprocessor (mkregs 13 0x756E6547 0x6C65746E 0x49656E69) (mkregs 0x306C3 0x100800 0x7FFAFBFF 0xBFEBFBFF) (mkregs 0 0x2FBB 0 0) no_registers no_registers no_registers (fun _ => no_registers) [] in
  map (fun x => bestImplementationSupported (p x)) [7; 3] = [AVX2Impl; SSE42Impl].
Proof.
  vm_compute. reflexivity.
Qed.

(** C62: currentImplementationSupported() tells whether the instruction sets the translation unit was compiled for can be used.
For every build that uses FMA4 only with XOP, XOP only with SSE4a and no F16C, and the VEX coding whenever an extra
instruction set needs it.  Missing: the other builds (see C62_current_refuted). *)
Theorem C62_current_partial :
  forall p b, cumulative p -> base b <> MICImpl -> (b_fma4 b = true -> b_xop b = true) -> (b_xop b = true -> b_sse4a b = true) -> b_f16c b = false ->
    (b_fma b || b_fma4 b || b_xop b = true -> b_vex b = true) ->
    currentImplementationSupported p b = true <-> forallb (usable p) (sets_of (base b) ++ extras b) = true.
Proof. exact CpuIdMain.C62_current_partial_main. Qed.
Print Assumptions C62_current_partial.

Example C62_current_partial_ex :
  let p := mkprocessor (mkregs 13 0x756E6547 0x6C65746E 0x49656E69) (mkregs 0x306C3 0x100800 0x7FFAFBFF 0xBFEBFBFF) (mkregs 0 0x2FBB 0 0) no_registers no_registers no_registers (fun _ => no_registers) [] in
  map (fun b => currentImplementationSupported (p 7) b) [mkbuild AVX2Impl false false false true true true false true; mkbuild AVXImpl true true true true false false false true] = [true; false].
Proof.
  vm_compute. reflexivity.
Qed.

(** C62 is false of other builds: a translation unit compiled with FMA4 but without XOP, or with F16C, passes
currentImplementationSupported() on a processor without FMA4, without F16C. *)
Theorem C62_current_refuted :
  forall fma4 f16c, fma4 || f16c = true -> exists p, cumulative p /\
    let b := mkbuild AVXImpl true false fma4 true false false f16c true in
    currentImplementationSupported p b = true /\ forallb (usable p) (extras b) = false.
Proof. exact CpuIdMain.C62_current_refuted_main. Qed.
Print Assumptions C62_current_refuted.

Example C62_current_refuted_ex :
  features (mkbuild AVXImpl true false true true false false true true) = features (mkbuild AVXImpl true false false true false false false true).
Proof.
  vm_compute. reflexivity.
Qed.

(** C62 for extraInstructionsSupported() is false: it reports FMA, although the operating system does not save the AVX registers,
so that the instructions cannot be used. *)
Theorem C62_extra_refuted :
  exists p, cumulative p /\ Z.testbit (extraInstructionsSupported p) 17 = true /\ usable p Fma = false.
Proof. exact CpuIdMain.C62_extra_refuted_main. Qed.
Print Assumptions C62_extra_refuted.

Example C62_extra_refuted_ex :
  extraInstructionsSupported (mkprocessor no_registers (mkregs 0 0 0x1000 0) no_registers no_registers no_registers no_registers (fun _ => no_registers) [] 0) = 0x20000.
Proof.
  vm_compute. reflexivity.
Qed.

(** C63: processorFamily() and processorModel() are the displayed family and model of the processor manuals; cacheLineSize() and
logicalProcessors() are those the processor reports.  For processors without an extended family (and not of family 11, for
which the manuals define no extended model).  Missing: extended families (see C63_family_refuted). *)
Theorem C63_signature_partial :
  forall p, field 27 20 (eax (leaf1 p)) = 0 -> field 11 8 (eax (leaf1 p)) <> 11 ->
    processorFamily p = display_family p /\ processorModel p = display_model p /\
    cacheLineSize p = 8 * field 15 8 (ebx (leaf1 p)) /\ logicalProcessors p = field 23 16 (ebx (leaf1 p)).
Proof. exact CpuIdMain.C63_signature_partial_main. Qed.
Print Assumptions C63_signature_partial.

Example C63_signature_partial_ex :
  let p := mkprocessor (mkregs 13 0x756E6547 0x6C65746E 0x49656E69) (mkregs 0x306C3 0x100800 0x7FFAFBFF 0xBFEBFBFF) no_registers no_registers no_registers no_registers (fun _ => no_registers) [] 7 in
  (processorFamily p, processorModel p, cacheLineSize p, logicalProcessors p) = (6, 0x3C, 64, 16).
Proof.
  vm_compute. reflexivity.
Qed.

(** C63 is false of every processor with an extended family, in particular of all AMD processors since family 16:
processorFamily() is not the family of the processor (the extended family is added 16-fold, and cut to four bits). *)
Theorem C63_family_refuted :
  forall p, field 11 8 (eax (leaf1 p)) = 15 -> field 27 20 (eax (leaf1 p)) <> 0 -> processorFamily p <> display_family p.
Proof. exact CpuIdMain.C63_family_refuted_main. Qed.
Print Assumptions C63_family_refuted.

Example C63_family_refuted_ex :
  let p := mkprocessor (mkregs 13 0x68747541 0x444D4163 0x69746E65) (mkregs 0x870F10 0x100800 0x7ED8320B 0x178BFBFF) no_registers no_registers no_registers no_registers (fun _ => no_registers) [] 7 in
  (processorFamily p, display_family p) = (0x8F, 0x17).
Proof.
  vm_compute. reflexivity.
Qed.

(** C64: on processors that are not from AMD, the sizes and line sizes of the caches (L1 instruction, L1 data, L2, L3), and the
associativity of L2 and L3, are those of the cache of that level the processor described last: in leaf 4 if leaf 2 refers to
it or is empty, otherwise (or if leaf 4 does not list such a cache) by the descriptors of leaf 2; 0 if there is none.
Missing: the descriptors 0x1D, 0x24 and 0x30 (see C64_descriptor_refuted), the associativity of L1 (see
C64_l1_associativity_refuted). *)
Theorem C64_caches_partial :
  forall p l, a_processor p -> amd p = false -> field 27 20 (eax (leaf1 p)) < 16 ->
    Forall (fun b => b <> 0x1D /\ b <> 0x24 /\ b <> 0x30) (leaf2_bytes p) ->
    Forall (fun r => field 4 0 (eax r) <> 0 /\ cache_size (leaf4_cache r) < 2 ^ 31) (leaf4 p) ->
    match reported_cache p l with
    | Some c => sizes (init_caches p) l = cache_size c /\ lines (init_caches p) l = line_size c /\ (l = L2 \/ l = L3 -> assoc (init_caches p) l = ways c)
    | None => sizes (init_caches p) l = 0 /\ lines (init_caches p) l = 0 /\ (l = L2 \/ l = L3 -> assoc (init_caches p) l = 0)
    end.
Proof. exact CpuIdMain.C64_caches_partial_main. Qed.
Print Assumptions C64_caches_partial.

Example C64_caches_partial_ex :
  let p := mkprocessor (mkregs 13 0x756E6547 0x6C65746E 0x49656E69) (mkregs 0x306C3 0x100800 0x7FFAFBFF 0xBFEBFBFF) no_registers no_registers no_registers no_registers
    (fun _ => mkregs 0x76036301 0xF0B5FF 0 0xC10000) [mkregs 0x1C004121 0x1C0003F 0x3F 0; mkregs 0x1C004122 0x1C0003F 0x3F 0; mkregs 0x1C004143 0x1C0003F 0x1FF 0; mkregs 0x1C03C163 0x3C0003F 0x1FFF 6] 7 in
  map (fun l => (sizes (init_caches p) l, lines (init_caches p) l, reported_cache p l)) [L1I; L1D; L2; L3] =
  [(32768, 64, Some (mkcache 32768 64 8)); (32768, 64, Some (mkcache 32768 64 8)); (262144, 64, Some (mkcache 262144 64 8)); (8388608, 64, Some (mkcache 8388608 64 16))].
Proof.
  vm_compute. reflexivity.
Qed.

(** C64 is false of the descriptor 0x30 (32 KB instruction cache), which is taken for a data cache, and of 0x1D and 0x24 (L2
caches), which are ignored. *)
Theorem C64_descriptor_refuted :
  forall byte, byte = 0x1D \/ byte = 0x24 \/ byte = 0x30 -> exists p l c, a_processor p /\ amd p = false /\ In byte (leaf2_bytes p) /\ leaf4 p = [] /\
    reported_cache p l = Some c /\ sizes (init_caches p) l <> cache_size c.
Proof. exact CpuIdMain.C64_descriptor_refuted_main. Qed.
Print Assumptions C64_descriptor_refuted.

Example C64_descriptor_refuted_ex :
  interpret (mkprocessor no_registers no_registers no_registers no_registers no_registers no_registers (fun _ => no_registers) [] 0) 0x24 (start, false) = (start, false).
Proof.
  reflexivity.
Qed.

(** C64 for L1Associativity() is false: if the processor describes its instruction cache after its data cache, L1Associativity()
is that of the instruction cache. *)
Theorem C64_l1_associativity_refuted :
  exists p c, a_processor p /\ amd p = false /\ Forall (fun b => b <> 0x1D /\ b <> 0x24 /\ b <> 0x30) (leaf2_bytes p) /\
    reported_cache p L1D = Some c /\ assoc (init_caches p) L1D <> ways c.
Proof. exact CpuIdMain.C64_l1_associativity_refuted_main. Qed.
Print Assumptions C64_l1_associativity_refuted.

Example C64_l1_associativity_refuted_ex :
  map (fun l => leaf2_descriptor 6 0x3C l) [0x06; 0x0A] = [Describes L1I (mkcache 8192 32 4); Describes L1D (mkcache 8192 32 2)].
Proof.
  vm_compute. reflexivity.
Qed.

(** C64: on AMD processors the sizes (below 4 GB), line sizes and associativities of the caches are those of leafs 0x80000005 and
0x80000006.  Missing: the associativity of L3 (see C64_amd_l3_refuted). *)
Theorem C64_amd_partial :
  forall p, a_processor p -> amd p = true ->
    let c5 := ecx (leaf80000005 p) in let d5 := edx (leaf80000005 p) in let c6 := ecx (leaf80000006 p) in let d6 := edx (leaf80000006 p) in
    let c := init_caches p in
    (sizes c L1D = field 31 24 c5 * K /\ lines c L1D = field 7 0 c5 /\ assoc c L1D = field 23 16 c5) /\
    (sizes c L1I = field 31 24 d5 * K /\ lines c L1I = field 7 0 d5) /\
    (sizes c L2 = field 31 16 c6 * K /\ lines c L2 = field 7 0 c6 /\ forall w, amd_ways (field 15 12 c6) = Some w -> assoc c L2 = w) /\
    (sizes c L3 = (field 31 18 d6 * 512 * K) mod 2 ^ 32 /\ lines c L3 = field 7 0 d6).
Proof. exact CpuIdMain.C64_amd_partial_main. Qed.
Print Assumptions C64_amd_partial.

Example C64_amd_partial_ex :
  let p := mkprocessor (mkregs 13 0x68747541 0x444D4163 0x69746E65) (mkregs 0x870F10 0x100800 0 0) no_registers no_registers (mkregs 0 0 0x20080140 0x20080140) (mkregs 0 0 0x2006140 0x1009140) (fun _ => no_registers) [] 7 in
  map (fun l => (sizes (init_caches p) l, lines (init_caches p) l, assoc (init_caches p) l)) [L1D; L2; L3] = [(32768, 64, 8); (524288, 64, 8); (33554432, 64, 8)].
Proof.
  vm_compute. reflexivity.
Qed.

(** C64 for L3Associativity() is false on AMD processors: it is the associativity of the L2 cache. *)
Theorem C64_amd_l3_refuted :
  forall p, a_processor p -> amd p = true -> assoc (init_caches p) L3 = assoc (init_caches p) L2 /\
  exists p', a_processor p' /\ amd p' = true /\ amd_ways (field 15 12 (edx (leaf80000006 p'))) = Some 16 /\ assoc (init_caches p') L3 = 8.
Proof. exact CpuIdMain.C64_amd_l3_refuted_main. Qed.
Print Assumptions C64_amd_l3_refuted.

Example C64_amd_l3_refuted_ex :
  map amd_associativity [6; 8; 0xF] = [8; 16; 255].
Proof.
  vm_compute. reflexivity.
Qed.
