(** Vc::CpuId (Vc/cpuid.h, src/cpuid.cpp) and the functions of Vc/support.h (src/support_x86.cpp).

    The answers of the CPUID and XGETBV instructions are parameters ([processor]).  unsigned int arithmetic wraps at 2^32,
    ushort and uchar variables keep the low 16 and 8 bits. *)
From Coq Require Import ZArith List Bool.
From Verif.Spec Require Import CpuSpec.
Import ListNotations.
Local Open Scope Z_scope.

Definition uint (z : Z) : Z := z mod 2 ^ 32.
Definition ushort (z : Z) : Z := z mod 2 ^ 16.
Definition uchar (z : Z) : Z := z mod 2 ^ 8.
Definition bit_set (r k : Z) : bool := negb (Z.land r (Z.shiftl 1 k) =? 0).

Section CpuId.
  Variable p : processor.
  (** cpuid.h:83-85, with cpuid.cpp:140-141 *)
  Definition isAmd : bool := ecx (leaf0 p) =? 0x444D4163.
  Definition isIntel : bool := ecx (leaf0 p) =? 0x6C65746E.
  (** cpuid.h:87-199, with cpuid.cpp:143-145, 177-183 *)
  Definition hasSse3 : bool := bit_set (ecx (leaf1 p)) 0.
  Definition hasSsse3 : bool := bit_set (ecx (leaf1 p)) 9.
  Definition hasFma : bool := bit_set (ecx (leaf1 p)) 12.
  Definition hasSse41 : bool := bit_set (ecx (leaf1 p)) 19.
  Definition hasSse42 : bool := bit_set (ecx (leaf1 p)) 20.
  Definition hasPopcnt : bool := bit_set (ecx (leaf1 p)) 23.
  Definition hasOsxsave : bool := bit_set (ecx (leaf1 p)) 27.
  Definition hasAvx : bool := bit_set (ecx (leaf1 p)) 28.
  Definition hasF16c : bool := bit_set (ecx (leaf1 p)) 29.
  Definition hasSse2 : bool := bit_set (edx (leaf1 p)) 26.
  Definition hasAvx2 : bool := bit_set (ebx (leaf7 p)) 5.
  Definition hasBmi2 : bool := bit_set (ebx (leaf7 p)) 8.
  Definition hasSse4a : bool := bit_set (ecx (leaf80000001 p)) 6.
  Definition hasXop : bool := bit_set (ecx (leaf80000001 p)) 11.
  Definition hasFma4 : bool := bit_set (ecx (leaf80000001 p)) 16.

  (** cpuid.cpp:150-153, 156-159, ...: the extended family and model *)
  Definition family_ext (eax : Z) : Z := uchar (Z.shiftr (Z.land eax 0x0ff00000) 16).
  Definition model_ext (eax : Z) : Z := uchar (Z.shiftr (Z.land eax 0x000f0000) 12).
  (** cpuid.cpp:146-168 *)
  Definition family_model : Z * Z :=
    let eax := eax (leaf1 p) in
    let model := uchar (Z.shiftr (Z.land eax 0x000000f0) 4) in
    let family := uchar (Z.shiftr (Z.land eax 0x00000f00) 8) in
    if isAmd then
      if 0xf <=? family then (uchar (family + family_ext eax), uchar (model + model_ext eax)) else (family, model)
    else if family =? 0xf then (uchar (family + family_ext eax), uchar (model + model_ext eax))
    else if family =? 0x6 then (family, uchar (model + model_ext eax))
    else if family =? 0xB then (uchar (family + family_ext eax), uchar (model + model_ext eax))
    else (family, model).
  Definition processorFamily : Z := fst family_model.
  Definition processorModel : Z := snd family_model.
  (** cpuid.cpp:171-175, cpuid.h:73, 81 *)
  Definition cacheLineSize : Z := ushort (Z.land (Z.shiftr (ebx (leaf1 p)) 8) 0xff * 8).
  Definition logicalProcessors : Z := Z.land (Z.shiftr (Z.shiftr (ebx (leaf1 p)) 8) 8) 0xff.

  (** ** caches *)
  (** the variables s_L1Instruction, s_L1Data, s_L2Data, s_L3Data; s_L1InstructionLineSize, ...; s_L1Associativity ([L1D]),
      s_L2Associativity, s_L3Associativity; s_prefetch and s_noL2orL3 *)
  Record caches := mkcaches { sizes : level -> Z; lines : level -> Z; assoc : level -> Z; prefetch : Z; no_l2_or_l3 : bool }.
  (** cpuid.cpp:42-53, 59 *)
  Definition start : caches := mkcaches (fun _ => 0) (fun _ => 0) (fun _ => 0) 32 false.
  Definition set (f : level -> Z) (l : level) (v : Z) : level -> Z := fun x => if same_level x l then v else f x.
  Definition put (l : level) (size line w : Z) (c : caches) : caches :=
    mkcaches (set (sizes c) l size) (set (lines c) l line) (set (assoc c) l w) (prefetch c) (no_l2_or_l3 c).
  (** the instruction cache has no variable for its associativity: interpret stores it in s_L1Associativity (cpuid.cpp:320),
      the loop over leaf 4 does not store it (281-282) *)
  Definition put_instruction (size line w : Z) (c : caches) : caches :=
    mkcaches (set (sizes c) L1I size) (set (lines c) L1I line) (set (assoc c) L1D w) (prefetch c) (no_l2_or_l3 c).
  Definition put_instruction4 (size line : Z) (c : caches) : caches :=
    mkcaches (set (sizes c) L1I size) (set (lines c) L1I line) (assoc c) (prefetch c) (no_l2_or_l3 c).
  Definition put_prefetch (n : Z) (c : caches) : caches := mkcaches (sizes c) (lines c) (assoc c) n (no_l2_or_l3 c).

  (** cpuid.cpp:314-644 *)
  Definition interpret (byte : Z) (cb : caches * bool) : caches * bool :=
    let '(c, checkLeaf4) := cb in
    let l1i s l w := (put_instruction s l w c, checkLeaf4) in
    let l1 s l w := (put L1D s l w c, checkLeaf4) in
    let l2 s l w := (put L2 s l w c, checkLeaf4) in
    let l3 s l w := (put L3 s l w c, checkLeaf4) in
    match byte with
    | 0x06 => l1i (8 * 1024) 32 4 | 0x08 => l1i (16 * 1024) 32 4 | 0x09 => l1i (32 * 1024) 64 4
    | 0x0A => l1 (8 * 1024) 32 2 | 0x0C => l1 (16 * 1024) 32 4 | 0x0D => l1 (16 * 1024) 64 4 | 0x0E => l1 (24 * 1024) 64 6
    | 0x21 => l2 (256 * 1024) 64 8
    | 0x22 => l3 (512 * 1024) 64 4 | 0x23 => l3 (1024 * 1024) 64 8 | 0x25 => l3 (2 * 1024 * 1024) 64 8 | 0x29 => l3 (4 * 1024 * 1024) 64 8
    | 0x2C => l1 (32 * 1024) 64 8 | 0x30 => l1 (32 * 1024) 64 8
    | 0x40 => (mkcaches (sizes c) (lines c) (assoc c) (prefetch c) true, checkLeaf4)
    | 0x41 => l2 (128 * 1024) 32 4 | 0x42 => l2 (256 * 1024) 32 4 | 0x43 => l2 (512 * 1024) 32 4
    | 0x44 => l2 (1024 * 1024) 32 4 | 0x45 => l2 (2 * 1024 * 1024) 32 4
    | 0x46 => l3 (4 * 1024 * 1024) 64 4 | 0x47 => l3 (8 * 1024 * 1024) 64 8
    | 0x48 => l2 (3 * 1024 * 1024) 64 12
    | 0x49 => if (processorFamily =? 0xf) && (processorModel =? 0x6) then l3 (4 * 1024 * 1024) 64 16 else l2 (4 * 1024 * 1024) 64 16
    | 0x4A => l3 (6 * 1024 * 1024) 64 12 | 0x4B => l3 (8 * 1024 * 1024) 64 16 | 0x4C => l3 (12 * 1024 * 1024) 64 12
    | 0x4D => l3 (16 * 1024 * 1024) 64 16
    | 0x4E => l2 (6 * 1024 * 1024) 64 24
    | 0x60 => l1 (16 * 1024) 64 8 | 0x66 => l1 (8 * 1024) 64 4 | 0x67 => l1 (16 * 1024) 64 4 | 0x68 => l1 (32 * 1024) 64 4
    | 0x78 => l2 (1024 * 1024) 64 4 | 0x79 => l2 (128 * 1024) 64 8 | 0x7A => l2 (256 * 1024) 64 8 | 0x7B => l2 (512 * 1024) 64 8
    | 0x7C => l2 (1024 * 1024) 64 8 | 0x7D => l2 (2 * 1024 * 1024) 64 8 | 0x7F => l2 (512 * 1024) 64 2 | 0x80 => l2 (512 * 1024) 64 8
    | 0x82 => l2 (256 * 1024) 32 8 | 0x83 => l2 (512 * 1024) 32 8 | 0x84 => l2 (1024 * 1024) 32 8 | 0x85 => l2 (2 * 1024 * 1024) 32 8
    | 0x86 => l2 (512 * 1024) 64 4 | 0x87 => l2 (1024 * 1024) 64 8
    | 0xD0 => l3 (512 * 1024) 64 4 | 0xD1 => l3 (1024 * 1024) 64 4 | 0xD2 => l3 (2 * 1024 * 1024) 64 4
    | 0xD6 => l3 (1024 * 1024) 64 8 | 0xD7 => l3 (2 * 1024 * 1024) 64 8 | 0xD8 => l3 (4 * 1024 * 1024) 64 8
    | 0xDC => l3 (3 * 512 * 1024) 64 12 | 0xDD => l3 (3 * 1024 * 1024) 64 12 | 0xDE => l3 (6 * 1024 * 1024) 64 12
    | 0xE2 => l3 (2 * 1024 * 1024) 64 16 | 0xE3 => l3 (4 * 1024 * 1024) 64 16 | 0xE4 => l3 (8 * 1024 * 1024) 64 16
    | 0xEA => l3 (12 * 1024 * 1024) 64 24 | 0xEB => l3 (18 * 1024 * 1024) 64 24 | 0xEC => l3 (24 * 1024 * 1024) 64 24
    | 0xF0 => (put_prefetch 64 c, checkLeaf4) | 0xF1 => (put_prefetch 128 c, checkLeaf4)
    | 0xFF => (c, true)
    | _ => cb
    end.
  (** cpuid.cpp:224-229 and its copies: the four bytes of a register, if its bit 31 is clear *)
  Fixpoint interpret_bytes (n : nat) (r : Z) (cb : caches * bool) : caches * bool :=
    match n with O => cb | S n => interpret_bytes n (Z.shiftr r 8) (interpret (Z.land r 0xff) cb) end.
  Definition interpret_register (n : nat) (r r' : Z) (cb : caches * bool) : caches * bool :=
    if Z.land 0x80000000 r =? 0 then interpret_bytes n r' cb else cb.
  (** cpuid.cpp:218-241; of EAX (218-223) the lowest byte is skipped *)
  Definition interpret_answer (r : registers) (cb : caches * bool) : caches * bool :=
    interpret_register 4 (edx r) (edx r) (interpret_register 4 (ecx r) (ecx r)
      (interpret_register 4 (ebx r) (ebx r) (interpret_register 3 (eax r) (Z.shiftr (eax r) 8) cb))).
  (** cpuid.cpp:208-242, the iterations after the first: [repeat] more answers, from the i-th on *)
  Fixpoint more_answers (repeat i : nat) (cb : caches * bool) : caches * bool :=
    match repeat with O => cb | S repeat => more_answers repeat (S i) (interpret_answer (leaf2 p i) cb) end.
  (** cpuid.cpp:206-242 *)
  Definition leaf2_loop (c : caches) : caches * bool :=
    let r := leaf2 p 0 in
    if (eax r =? 0) && (ebx r =? 0) && (ecx r =? 0) && (edx r =? 0) then (c, true)
    else more_answers (Z.to_nat (Z.land (eax r) 0xff - 1)) 1 (interpret_answer r (c, false)).
  (** cpuid.cpp:250-309; int arithmetic that overflows is undefined, here it wraps *)
  Definition leaf4_answer (r : registers) (c : caches) : caches :=
    let cacheLevel := Z.land (Z.shiftr (eax r) 5) 7 in
    let linesize := 1 + Z.land (ebx r) 0xfff in
    let partitions := 1 + Z.land (Z.shiftr (ebx r) 12) 0x3ff in
    let ways := 1 + Z.land (Z.shiftr (Z.shiftr (ebx r) 12) 10) 0x3ff in
    let sets := uint (1 + ecx r) in
    let size := uint (ways * partitions * linesize * sets) in
    match Z.land (eax r) 0x1f with
    | 1 => match cacheLevel with
           | 1 => put L1D size (ushort linesize) ways c
           | 2 => put L2 size (ushort linesize) ways c
           | 3 => put L3 size (ushort linesize) ways c
           | _ => c
           end
    | 2 => match cacheLevel with 1 => put_instruction4 size (ushort linesize) c | _ => c end
    | 3 => match cacheLevel with
           | 1 => put L1D size (ushort linesize) ways c
           | 2 => put L2 size (ushort linesize) ways c
           | 3 => put L3 size (ushort linesize) ways c
           | _ => c
           end
    | _ => c
    end.
  (** cpuid.cpp:248-310: up to the first answer without a cache type; after the last listed answer there are no more *)
  Fixpoint leaf4_loop (rs : list registers) (c : caches) : caches :=
    match rs with
    | [] => c
    | r :: rs => if Z.land (eax r) 0x1f =? 0 then leaf4_answer r c else leaf4_loop rs (leaf4_answer r c)
    end.
  (** cpuid.cpp:112-129 *)
  Definition amd_associativity (bits : Z) : Z :=
    match bits with
    | 0 => 0 | 1 => 1 | 2 => 2 | 4 => 4 | 6 => 8 | 8 => 16 | 0xA => 32 | 0xB => 48 | 0xC => 64 | 0xD => 96 | 0xE => 128 | 0xF => 0xff
    | _ => 0xffffffff
    end.
  (** cpuid.cpp:185-312 *)
  Definition init_caches : caches :=
    if isAmd then
      let c5 := ecx (leaf80000005 p) in
      let d5 := edx (leaf80000005 p) in
      let c6 := ecx (leaf80000006 p) in
      let d6 := edx (leaf80000006 p) in
      let c := put_prefetch cacheLineSize start in
      let c := put L1D (uint (Z.shiftr c5 24 * 1024)) (Z.land c5 0xff) (Z.land (Z.shiftr c5 16) 0xff) c in
      let c := put_instruction4 (uint (Z.shiftr d5 24 * 1024)) (Z.land d5 0xff) c in
      let c := put L2 (uint (Z.shiftr c6 16 * 1024)) (Z.land c6 0xff) (amd_associativity (Z.land (Z.shiftr c6 12) 0xf)) c in
      put L3 (uint (Z.shiftr d6 18 * 512 * 1024)) (Z.land d6 0xff) (amd_associativity (Z.land (Z.shiftr c6 12) 0xf)) c
    else
      let '(c, checkLeaf4) := leaf2_loop start in
      if checkLeaf4 then leaf4_loop (leaf4 p) (put_prefetch (if cacheLineSize =? 0 then 64 else cacheLineSize) c) else c.

  (** ** support *)
  (** support_x86.cpp:46-59 (the branch with inline assembly) *)
  Definition xgetbvCheck (bits : Z) : bool := Z.land (uint (xcr0 p)) bits =? bits.
  (** support_x86.cpp:62-90 *)
  Definition isImplementationSupported (impl : implementation) : bool :=
    match impl with
    | ScalarImpl => true
    | SSE2Impl => hasSse2
    | SSE3Impl => hasSse3
    | SSSE3Impl => hasSsse3
    | SSE41Impl => hasSse41
    | SSE42Impl => hasSse42
    | AVXImpl => hasOsxsave && hasAvx && xgetbvCheck 0x6
    | AVX2Impl => hasOsxsave && hasAvx2 && xgetbvCheck 0x6
    | MICImpl => (processorFamily =? 0xB) && (processorModel =? 0x1) && isIntel
    end.
  (** support_x86.cpp:93-111 *)
  Definition bestImplementationSupported : implementation :=
    if (processorFamily =? 0xB) && (processorModel =? 0x1) && isIntel then MICImpl
    else if negb hasSse2 then ScalarImpl
    else if negb hasSse3 then SSE2Impl
    else if negb hasSsse3 then SSE3Impl
    else if negb hasSse41 then SSSE3Impl
    else if negb hasSse42 then SSE41Impl
    else if hasAvx && hasOsxsave && xgetbvCheck 0x6 then if negb hasAvx2 then AVXImpl else AVX2Impl
    else SSE42Impl.
  (** support_x86.cpp:114-129, with the flags of global.h:515-533 *)
  Definition extraInstructionsSupported : Z :=
    let flag (b : bool) (f flags : Z) := if b then Z.lor flags f else flags in
    flag (hasOsxsave && hasAvx && xgetbvCheck 0x6) 0x40000 (flag hasBmi2 0x80000 (flag hasFma 0x20000 (flag hasSse4a 0x10000
      (flag hasPopcnt 0x08000 (flag hasXop 0x04000 (flag hasFma4 0x02000 (flag hasF16c 0x01000 0))))))).
End CpuId.

(** global.h:546-575: ImplementationT<Features>; the numbers of the enumerators *)
Definition enumerator (i : implementation) : Z :=
  match i with
  | ScalarImpl => 0 | SSE2Impl => 1 | SSE3Impl => 2 | SSSE3Impl => 3 | SSE41Impl => 4 | SSE42Impl => 5 | AVXImpl => 6 | AVX2Impl => 7 | MICImpl => 8
  end.
Definition runs_on (features extra : Z) : bool := Z.land (Z.land extra features) 0xfffff000 =? Z.land features 0xfffff000.
(** the macros Vc_IMPL_*, Vc_USE_VEX_CODING that select the code of a build, and global.h:581-621: CurrentImplementation *)
Record build := mkbuild { base : implementation; b_sse4a : bool; b_xop : bool; b_fma4 : bool; b_popcnt : bool; b_fma : bool; b_bmi2 : bool; b_f16c : bool; b_vex : bool }.
Definition features (b : build) : Z :=
  let flag (c : bool) (f : Z) := if c then f else 0 in
  enumerator (base b) + (if b_sse4a b then 0x10000 + (if b_xop b then 0x04000 + flag (b_fma4 b) 0x02000 else 0) else 0)
  + flag (b_popcnt b) 0x08000 + flag (b_fma b) 0x20000 + flag (b_bmi2 b) 0x80000 + flag (b_vex b) 0x40000.
(** the instruction sets the code of a build uses beyond its implementation *)
Definition extras (b : build) : list instructions :=
  (if b_sse4a b then [Sse4a] else []) ++ (if b_xop b then [Xop] else []) ++ (if b_fma4 b then [Fma4] else []) ++ (if b_popcnt b then [Popcnt] else [])
  ++ (if b_fma b then [Fma] else []) ++ (if b_bmi2 b then [Bmi2] else []) ++ (if b_f16c b then [F16c] else []) ++ (if b_vex b then [Avx] else []).
(** support.h:96-102, 148-151: currentImplementationSupported() in a build *)
Definition currentImplementationSupported (p : processor) (b : build) : bool :=
  isImplementationSupported p (base b) && runs_on (features b) (extraInstructionsSupported p).
