(** What x86 processors and operating systems report about themselves: the relevant parts of the description of the CPUID
    instruction in the Intel Software Developer's Manual (volume 2A) and in the AMD Programmer's Manual (volume 3), and the
    instruction sets of the Vc::Implementations as documented in Vc/global.h. *)
From Coq Require Import ZArith List Bool.
Import ListNotations.
Local Open Scope Z_scope.

(** the four registers after CPUID *)
Record registers := mkregs { eax : Z; ebx : Z; ecx : Z; edx : Z }.
Definition no_registers : registers := mkregs 0 0 0 0.
(** the answers of one processor to the requests ("leafs"), and XCR0, the register in which the operating system tells the
    processor which register files it saves.  Leaf 2 may have to be asked repeatedly, leaf 4 lists the caches. *)
Record processor := mkprocessor {
  leaf0 : registers; leaf1 : registers; leaf7 : registers; leaf80000001 : registers; leaf80000005 : registers; leaf80000006 : registers;
  leaf2 : nat -> registers; leaf4 : list registers; xcr0 : Z }.
Definition is_register (z : Z) : Prop := 0 <= z < 2 ^ 32.
Definition are_registers (r : registers) : Prop := is_register (eax r) /\ is_register (ebx r) /\ is_register (ecx r) /\ is_register (edx r).
Definition a_processor (p : processor) : Prop :=
  are_registers (leaf0 p) /\ are_registers (leaf1 p) /\ are_registers (leaf7 p) /\ are_registers (leaf80000001 p) /\
  are_registers (leaf80000005 p) /\ are_registers (leaf80000006 p) /\ (forall i, are_registers (leaf2 p i)) /\ Forall are_registers (leaf4 p).

(** bits lo .. hi of a register *)
Definition field (hi lo r : Z) : Z := (r / 2 ^ lo) mod 2 ^ (hi - lo + 1).

(** ** instruction sets *)
Inductive instructions := Sse2 | Sse3 | Ssse3 | Sse41 | Sse42 | Avx | Avx2 | F16c | Fma4 | Xop | Popcnt | Sse4a | Fma | Bmi2.
(** the processor has the instructions *)
Definition has (p : processor) (i : instructions) : bool :=
  match i with
  | Sse3 => Z.testbit (ecx (leaf1 p)) 0 | Ssse3 => Z.testbit (ecx (leaf1 p)) 9 | Fma => Z.testbit (ecx (leaf1 p)) 12
  | Sse41 => Z.testbit (ecx (leaf1 p)) 19 | Sse42 => Z.testbit (ecx (leaf1 p)) 20 | Popcnt => Z.testbit (ecx (leaf1 p)) 23
  | Avx => Z.testbit (ecx (leaf1 p)) 28 | F16c => Z.testbit (ecx (leaf1 p)) 29 | Sse2 => Z.testbit (edx (leaf1 p)) 26
  | Avx2 => Z.testbit (ebx (leaf7 p)) 5 | Bmi2 => Z.testbit (ebx (leaf7 p)) 8
  | Sse4a => Z.testbit (ecx (leaf80000001 p)) 6 | Xop => Z.testbit (ecx (leaf80000001 p)) 11 | Fma4 => Z.testbit (ecx (leaf80000001 p)) 16
  end.
(** the operating system saves the SSE and AVX registers: it uses XSAVE, and bits 1 and 2 of XCR0 are set *)
Definition os_saves_avx (p : processor) : bool := Z.testbit (ecx (leaf1 p)) 27 && Z.testbit (xcr0 p) 1 && Z.testbit (xcr0 p) 2.
(** instructions that use the AVX registers or their encoding *)
Definition needs_avx_state (i : instructions) : bool :=
  match i with Avx | Avx2 | F16c | Fma4 | Xop | Fma => true | _ => false end.
(** a program may use the instructions *)
Definition usable (p : processor) (i : instructions) : bool := has p i && implb (needs_avx_state i) (os_saves_avx p).
(** "the following instruction sets always include their predecessors: SSE2, SSE3, SSSE3, SSE4.1, SSE4.2, AVX, AVX2"
    (Vc/global.h:507-509) *)
Definition cumulative (p : processor) : Prop :=
  (has p Avx2 = true -> has p Avx = true) /\ (has p Avx = true -> has p Sse42 = true) /\ (has p Sse42 = true -> has p Sse41 = true) /\
  (has p Sse41 = true -> has p Ssse3 = true) /\ (has p Ssse3 = true -> has p Sse3 = true) /\ (has p Sse3 = true -> has p Sse2 = true).
(** Vc::Implementation (Vc/global.h:482-502); the instruction sets they use *)
Inductive implementation := ScalarImpl | SSE2Impl | SSE3Impl | SSSE3Impl | SSE41Impl | SSE42Impl | AVXImpl | AVX2Impl | MICImpl.
Definition sets_of (i : implementation) : list instructions :=
  match i with
  | ScalarImpl | MICImpl => [] | SSE2Impl => [Sse2] | SSE3Impl => [Sse2; Sse3] | SSSE3Impl => [Sse2; Sse3; Ssse3]
  | SSE41Impl => [Sse2; Sse3; Ssse3; Sse41] | SSE42Impl => [Sse2; Sse3; Ssse3; Sse41; Sse42]
  | AVXImpl => [Sse2; Sse3; Ssse3; Sse41; Sse42; Avx] | AVX2Impl => [Sse2; Sse3; Ssse3; Sse41; Sse42; Avx; Avx2]
  end.
(** the order from the least to the best *)
Definition rank (i : implementation) : Z :=
  match i with
  | ScalarImpl => 0 | SSE2Impl => 1 | SSE3Impl => 2 | SSSE3Impl => 3 | SSE41Impl => 4 | SSE42Impl => 5 | AVXImpl => 6 | AVX2Impl => 7 | MICImpl => 8
  end.
(** the first Xeon Phi: an Intel processor of family 11, model 1 *)
Definition intel (p : processor) : bool := ecx (leaf0 p) =? 0x6C65746E. (* "ntel" *)
Definition amd (p : processor) : bool := ecx (leaf0 p) =? 0x444D4163. (* "cAMD" *)
Definition xeon_phi (p : processor) : bool :=
  intel p && (field 11 8 (eax (leaf1 p)) =? 11) && (field 7 4 (eax (leaf1 p)) =? 1) && (field 19 16 (eax (leaf1 p)) =? 0) && (field 27 20 (eax (leaf1 p)) =? 0).
Definition runs (p : processor) (i : implementation) : bool :=
  match i with MICImpl => xeon_phi p | _ => forallb (usable p) (sets_of i) end.

(** ** the processor signature: "displayed" family and model *)
Definition display_family (p : processor) : Z :=
  let s := eax (leaf1 p) in if field 11 8 s =? 15 then field 11 8 s + field 27 20 s else field 11 8 s.
Definition display_model (p : processor) : Z :=
  let s := eax (leaf1 p) in
  if (field 11 8 s =? 15) || (negb (amd p) && (field 11 8 s =? 6)) then field 19 16 s * 16 + field 7 4 s else field 7 4 s.

(** ** caches: size in bytes, line size, associativity *)
Record cache := mkcache { cache_size : Z; line_size : Z; ways : Z }.
Inductive level := L1I | L1D | L2 | L3.
(** leaf 4: what one answer describes *)
Definition leaf4_cache (r : registers) : cache :=
  let line := field 11 0 (ebx r) + 1 in
  let partitions := field 21 12 (ebx r) + 1 in
  let w := field 31 22 (ebx r) + 1 in
  let sets := ecx r + 1 in
  mkcache (w * partitions * line * sets) line w.
Definition leaf4_level (r : registers) : option level :=
  let t := field 4 0 (eax r) in
  let l := field 7 5 (eax r) in
  if t =? 2 then if l =? 1 then Some L1I else None
  else if (t =? 1) || (t =? 3) then if l =? 1 then Some L1D else if l =? 2 then Some L2 else if l =? 3 then Some L3 else None
  else None.
(** leaf 2: the meaning of a descriptor byte, on a processor of the given family and model *)
Inductive descriptor := Describes (l : level) (c : cache) | Prefetch (n : Z) | SeeLeaf4 | Other.
Definition K := 1024.
Definition M := 1024 * 1024.
Definition leaf2_descriptor (family model byte : Z) : descriptor :=
  let d l s line w := Describes l (mkcache s line w) in
  match byte with
  | 0x06 => d L1I (8 * K) 32 4 | 0x08 => d L1I (16 * K) 32 4 | 0x09 => d L1I (32 * K) 64 4 | 0x30 => d L1I (32 * K) 64 8
  | 0x0A => d L1D (8 * K) 32 2 | 0x0C => d L1D (16 * K) 32 4 | 0x0D => d L1D (16 * K) 64 4 | 0x0E => d L1D (24 * K) 64 6
  | 0x2C => d L1D (32 * K) 64 8 | 0x60 => d L1D (16 * K) 64 8 | 0x66 => d L1D (8 * K) 64 4 | 0x67 => d L1D (16 * K) 64 4
  | 0x68 => d L1D (32 * K) 64 4
  | 0x1D => d L2 (128 * K) 64 2 | 0x21 => d L2 (256 * K) 64 8 | 0x24 => d L2 (1 * M) 64 16
  | 0x41 => d L2 (128 * K) 32 4 | 0x42 => d L2 (256 * K) 32 4 | 0x43 => d L2 (512 * K) 32 4 | 0x44 => d L2 (1 * M) 32 4
  | 0x45 => d L2 (2 * M) 32 4 | 0x48 => d L2 (3 * M) 64 12 | 0x4E => d L2 (6 * M) 64 24
  | 0x78 => d L2 (1 * M) 64 4 | 0x79 => d L2 (128 * K) 64 8 | 0x7A => d L2 (256 * K) 64 8 | 0x7B => d L2 (512 * K) 64 8
  | 0x7C => d L2 (1 * M) 64 8 | 0x7D => d L2 (2 * M) 64 8 | 0x7F => d L2 (512 * K) 64 2 | 0x80 => d L2 (512 * K) 64 8
  | 0x82 => d L2 (256 * K) 32 8 | 0x83 => d L2 (512 * K) 32 8 | 0x84 => d L2 (1 * M) 32 8 | 0x85 => d L2 (2 * M) 32 8
  | 0x86 => d L2 (512 * K) 64 4 | 0x87 => d L2 (1 * M) 64 8
  | 0x49 => d (if (family =? 0xf) && (model =? 6) then L3 else L2) (4 * M) 64 16
  | 0x22 => d L3 (512 * K) 64 4 | 0x23 => d L3 (1 * M) 64 8 | 0x25 => d L3 (2 * M) 64 8 | 0x29 => d L3 (4 * M) 64 8
  | 0x46 => d L3 (4 * M) 64 4 | 0x47 => d L3 (8 * M) 64 8 | 0x4A => d L3 (6 * M) 64 12 | 0x4B => d L3 (8 * M) 64 16
  | 0x4C => d L3 (12 * M) 64 12 | 0x4D => d L3 (16 * M) 64 16
  | 0xD0 => d L3 (512 * K) 64 4 | 0xD1 => d L3 (1 * M) 64 4 | 0xD2 => d L3 (2 * M) 64 4 | 0xD6 => d L3 (1 * M) 64 8
  | 0xD7 => d L3 (2 * M) 64 8 | 0xD8 => d L3 (4 * M) 64 8 | 0xDC => d L3 (1536 * K) 64 12 | 0xDD => d L3 (3 * M) 64 12
  | 0xDE => d L3 (6 * M) 64 12 | 0xE2 => d L3 (2 * M) 64 16 | 0xE3 => d L3 (4 * M) 64 16 | 0xE4 => d L3 (8 * M) 64 16
  | 0xEA => d L3 (12 * M) 64 24 | 0xEB => d L3 (18 * M) 64 24 | 0xEC => d L3 (24 * M) 64 24
  | 0xF0 => Prefetch 64 | 0xF1 => Prefetch 128 | 0xFF => SeeLeaf4
  | _ => Other
  end.
(** the descriptors in the answers to leaf 2: those of a register whose bit 31 is clear; the lowest byte of EAX is the number
    of times leaf 2 has to be asked *)
Definition register_bytes (r : Z) : list Z := if Z.testbit r 31 then [] else [field 7 0 r; field 15 8 r; field 23 16 r; field 31 24 r].
Definition answer_bytes (r : registers) : list Z :=
  tl (register_bytes (eax r)) ++ register_bytes (ebx r) ++ register_bytes (ecx r) ++ register_bytes (edx r).
Definition leaf2_bytes (p : processor) : list Z :=
  flat_map (fun i => answer_bytes (leaf2 p i)) (seq 0 (Z.to_nat (Z.max 1 (field 7 0 (eax (leaf2 p 0)))))).
(** the last cache of a level that a list mentions *)
Definition same_level (a b : level) : bool := match a, b with L1I, L1I | L1D, L1D | L2, L2 | L3, L3 => true | _, _ => false end.
Definition last_cache {A} (describes : A -> option (level * cache)) (l : level) (xs : list A) : option cache :=
  fold_left (fun o x => match describes x with Some (l', c) => if same_level l l' then Some c else o | None => o end) xs None.
Definition descriptor_cache (p : processor) (byte : Z) : option (level * cache) :=
  match leaf2_descriptor (display_family p) (display_model p) byte with Describes l c => Some (l, c) | _ => None end.
Definition answer_cache (r : registers) : option (level * cache) := option_map (fun l => (l, leaf4_cache r)) (leaf4_level r).
(** what a processor that is not from AMD reports: leaf 4 is asked if leaf 2 says so (byte 0xFF), or nothing at all *)
Definition silent (r : registers) : bool := (eax r =? 0) && (ebx r =? 0) && (ecx r =? 0) && (edx r =? 0).
Definition reported_cache (p : processor) (l : level) : option cache :=
  let from2 := last_cache (descriptor_cache p) l (leaf2_bytes p) in
  if silent (leaf2 p 0) || existsb (Z.eqb 0xFF) (leaf2_bytes p)
  then match last_cache answer_cache l (leaf4 p) with Some c => Some c | None => from2 end
  else from2.
(** AMD, leafs 0x80000005 and 0x80000006; the codes of the associativity in the latter (0xF: fully associative) *)
Definition amd_ways (code : Z) : option Z :=
  match code with
  | 0 => Some 0 | 1 => Some 1 | 2 => Some 2 | 4 => Some 4 | 6 => Some 8 | 8 => Some 16 | 0xA => Some 32 | 0xB => Some 48 | 0xC => Some 64
  | 0xD => Some 96 | 0xE => Some 128 | 0xF => Some 255 | _ => None
  end.
