(** gather and scatter in AVX builds *)
From Coq Require Import ZArith List Bool Lia.
From Verif.Spec Require Import Seq NativeSpec MaskSpec OperandSpec GatherSpec CastSpec ByteMemSpec.
From Verif.Model Require Import Word SseReg SplitSize SimdArray SimdArrayOps Mem SseMove SortNet SseInt SseBuild SseMask GatherScatter AvxReg AvxMove AvxBuild AvxShuffle AvxMask AvxGather.
Import ListNotations.
Local Open Scope Z_scope.
From Verif.Proof Require AvxGatherMain.

(** C24: gather without mask, every N, in AVX and AVX2 builds: entry i becomes mem[idx[i]]; exactly these addresses are
read (with one of them invalid the access is invalid, all other memory is irrelevant). *)
Theorem C24_avx_gather :
  forall (A : Type) (zero : A) avx2 e n (t : sa A) x m mem, wf (avx_widths_of avx2 e) n t -> index_ok n x ->
    (mapped m mem (index_at x) n (fun _ => true) ->
       exists r, avx_gather m mem x t = Some r /\ wf (avx_widths_of avx2 e) n r /\
         gathered zero m mem (index_at x) (fun _ => true) (to_list t) (to_list r)) /\
    ((exists i, 0 <= i < Z.of_nat n /\ m (mem + index_at x i) = None) -> avx_gather m mem x t = None).
Proof. exact AvxGatherMain.C24_avx_gather_main. Qed.
Print Assumptions C24_avx_gather.

Example C24_avx_gather_ex :
  index_ok 11 (IxPointer [7; 0; 3; 3; 9; 1; 2; 2; 2; 5; 4; 4] 0) /\
  option_map (@to_list Z) (avx_gather (fun a => if (100 <=? a) && (a <? 110) then Some (a * 2) else None) 100 (IxPointer [7; 0; 3; 3; 9; 1; 2; 2; 2; 5; 4; 4] 0)
    (generate (avx_widths_of false Float) 11 (fun i => 0))) = Some [214; 200; 206; 206; 218; 202; 204; 204; 204; 210; 208].
Proof.
  split; [cbn; lia|]. vm_compute; reflexivity.
Qed.

(** C24: gather with mask, every N, every strategy but SetIndexZero, in AVX and AVX2 builds: selected entries become
mem[idx[i]], the others keep their value, and only selected addresses are read. *)
Theorem C24_avx_gather_masked :
  forall (A : Type) (zero : A) avx2 e st hw n (t : sa A) (k : sa bool) x m mem, st <> SetIndexZero ->
    wf (avx_widths_of avx2 e) n t -> wf (avx_widths_of avx2 e) n k -> index_ok n x ->
    let sel := znth false (to_list k) in
    (mapped m mem (index_at x) n sel ->
       exists r, avx_gather_mask st hw (esize e) m mem x k t = Some r /\ wf (avx_widths_of avx2 e) n r /\
         gathered zero m mem (index_at x) sel (to_list t) (to_list r)) /\
    ((exists i, 0 <= i < Z.of_nat n /\ sel i = true /\ m (mem + index_at x i) = None) ->
       avx_gather_mask st hw (esize e) m mem x k t = None).
Proof. exact AvxGatherMain.C24_avx_gather_masked_main. Qed.
Print Assumptions C24_avx_gather_masked.

Example C24_avx_gather_masked_ex :
  option_map (@to_list Z) (avx_gather_mask PopcntSwitch false 4 (fun a => if (100 <=? a) && (a <? 110) then Some (a * 2) else None) 100
    (IxPointer [7; 0; 300; 3; 9; 1; 1; 1; 1; 5] 0) (generate (avx_widths_of true Int) 10 (fun i => negb (i =? 2))) (generate (avx_widths_of true Int) 10 (fun i => - i)))
  = Some [214; 200; -2; 206; 218; 202; 202; 202; 202; 210].
Proof.
  vm_compute. reflexivity.
Qed.

(** C25: scatter without mask, every N, in AVX and AVX2 builds: v[i] is written to mem[idx[i]], for equal indexes the
highest i wins, all other memory keeps its value, and no invalid address but the given ones matters. *)
Theorem C25_avx_scatter :
  forall (A : Type) (zero : A) avx2 e n (t : sa A) x m mem, wf (avx_widths_of avx2 e) n t -> index_ok n x ->
    (mapped m mem (index_at x) n (fun _ => true) ->
       exists m', avx_scatter zero t mem x m = Some m' /\ scattered_last zero (to_list t) mem (index_at x) (fun _ => true) m m') /\
    ((exists i, 0 <= i < Z.of_nat n /\ m (mem + index_at x i) = None) -> avx_scatter zero t mem x m = None).
Proof. exact AvxGatherMain.C25_avx_scatter_main. Qed.
Print Assumptions C25_avx_scatter.

Example C25_avx_scatter_ex :
  option_map (fun m' : memory Z => map m' [100; 101; 102; 103; 104])
    (avx_scatter 0 (generate (avx_widths_of true Double) 5 (fun i => i + 1)) 100 (IxPointer [4; 1; 1; 0; 4] 0) (fun a => if (100 <=? a) && (a <? 110) then Some 0 else None))
  = Some [Some 4; Some 3; Some 0; Some 0; Some 5].
Proof.
  vm_compute. reflexivity.
Qed.

(** C25: scatter with mask, default strategy (SimpleLoop), in AVX and AVX2 builds: the same for the selected entries. *)
Theorem C25_avx_scatter_masked :
  forall (A : Type) (zero : A) avx2 e hw n (t : sa A) (k : sa bool) x m mem,
    wf (avx_widths_of avx2 e) n t -> wf (avx_widths_of avx2 e) n k -> index_ok n x ->
    let sel := znth false (to_list k) in
    (mapped m mem (index_at x) n sel ->
       exists m', avx_scatter_mask zero SimpleLoop hw (esize e) t mem x k m = Some m' /\
         scattered_last zero (to_list t) mem (index_at x) sel m m') /\
    ((exists i, 0 <= i < Z.of_nat n /\ sel i = true /\ m (mem + index_at x i) = None) ->
       avx_scatter_mask zero SimpleLoop hw (esize e) t mem x k m = None).
Proof. exact AvxGatherMain.C25_avx_scatter_masked_main. Qed.
Print Assumptions C25_avx_scatter_masked.

Example C25_avx_scatter_masked_ex :
  option_map (fun m' : memory Z => map m' [100; 101; 102; 103; 104])
    (avx_scatter_mask 0 SimpleLoop false 8 (generate (avx_widths_of false Double) 5 (fun i => i + 1)) 100 (IxPointer [4; 1; 1; 0; 99] 0)
      (generate (avx_widths_of false Double) 5 (fun i => negb (i =? 4))) (fun a => if (100 <=? a) && (a <? 110) then Some 0 else None))
  = Some [Some 4; Some 3; Some 0; Some 0; Some 1].
Proof.
  vm_compute. reflexivity.
Qed.

(** C25, the other writing strategies (BitScanLoop, PopcntSwitch) in AVX and AVX2 builds: each address hit by a selected
entry holds the value of one such entry, hence with distinct indexes every selected v[i] is at mem[idx[i]]; all other
memory is unchanged.  Missing: equal indexes (C25_scatter_order_refuted). *)
Theorem C25_avx_scatter_strategies_partial :
  forall (A : Type) (zero : A) avx2 e st hw n (t : sa A) (k : sa bool) x m mem, st <> SetIndexZero ->
    wf (avx_widths_of avx2 e) n t -> wf (avx_widths_of avx2 e) n k -> index_ok n x ->
    let sel := znth false (to_list k) in
    (mapped m mem (index_at x) n sel ->
       exists m', avx_scatter_mask zero st hw (esize e) t mem x k m = Some m' /\
         scattered zero (to_list t) mem (index_at x) sel m m' /\
         ((forall i j, 0 <= i < Z.of_nat n -> 0 <= j < Z.of_nat n -> sel i = true -> sel j = true ->
             index_at x i = index_at x j -> i = j) ->
          forall i, 0 <= i < Z.of_nat n -> sel i = true -> m' (mem + index_at x i) = Some (znth zero (to_list t) i))) /\
    ((exists i, 0 <= i < Z.of_nat n /\ sel i = true /\ m (mem + index_at x i) = None) ->
       avx_scatter_mask zero st hw (esize e) t mem x k m = None).
Proof. exact AvxGatherMain.C25_avx_scatter_strategies_partial_main. Qed.
Print Assumptions C25_avx_scatter_strategies_partial.

Example C25_avx_scatter_strategies_partial_ex :
  option_map (fun m' : memory Z => map m' [100; 101; 102; 103; 104])
    (avx_scatter_mask 0 PopcntSwitch true 4 (generate (avx_widths_of true UInt) 9 (fun i => i + 1)) 100 (IxPointer [4; 1; 2; 0; 99; 99; 99; 99; 3] 0)
      (generate (avx_widths_of true UInt) 9 (fun i => (i <? 3) || (i =? 8))) (fun a => if (100 <=? a) && (a <? 110) then Some 0 else None))
  = Some [Some 0; Some 2; Some 3; Some 9; Some 1].
Proof.
  vm_compute. reflexivity.
Qed.

(** C24, the gather instructions of AVX2 builds (float, double, int and unsigned int vectors; memory of bytes): for all
index vectors with enough entries (AVX or SSE, any integer type) whose entries are below 2 ^ 31, entry i of the result
is the number stored at the address &mem[Scale * idx[i]]; negative indexes included.  Exactly these elements are read. *)
Theorem C24_avx2_gather :
  forall undef e scale m mem ix (idx : list Z), length undef = 16%nat -> Forall (fun b => 0 <= b < 256) undef ->
    (4 <= esize e)%nat -> byte_memory m -> index_values ix idx -> (32 / esize e <= length idx)%nat ->
    Forall (fun z => z < 2 ^ 31) idx ->
    let n := (32 / esize e)%nat in
    let addr i := mem + znth 0 idx i * (scale * Z.of_nat (esize e)) in
    ((forall i, 0 <= i < Z.of_nat n -> readable m (addr i) (esize e)) ->
       exists xs : list (elt e), y_gather undef e scale m mem ix = Some (ypack xs) /\ length xs = n /\
         forall i, 0 <= i < Z.of_nat n -> number_at m (addr i) (esize e) (uval (znth (w0 (esize e)) xs i))) /\
    ((exists i j, 0 <= i < Z.of_nat n /\ 0 <= j < Z.of_nat (esize e) /\ m (addr i + j) = None) ->
       y_gather undef e scale m mem ix = None).
Proof. exact AvxGatherMain.C24_avx2_gather_main. Qed.
Print Assumptions C24_avx2_gather.

Example C24_avx2_gather_ex :
  option_map (fun r => map uval (ylanes 4 r)) (y_gather (repeat 0 16) Float 1 (fun a => if (0 <=? a) && (a <? 40) then Some a else None) 16
    (IxAvx Int (ypack (map (mkw 4) [0; 1; -1; 2; -4; 5; 0; 0]))))
  = Some [0x13121110; 0x17161514; 0x0f0e0d0c; 0x1b1a1918; 0x03020100; 0x27262524; 0x13121110; 0x13121110] /\
  option_map (fun r => map uval (ylanes 8 r)) (y_gather (repeat 0 16) Double 1 (fun a => if (0 <=? a) && (a <? 40) then Some a else None) 16
    (IxSse UInt (pack (map (mkw 4) [0; 1; 2; 0]))))
  = Some [0x1716151413121110; 0x1f1e1d1c1b1a1918; 0x2726252423222120; 0x1716151413121110].
Proof.
  split; vm_compute; reflexivity.
Qed.

(** C24, the masked gather instructions of AVX2 builds: selected entries become the number stored at &mem[Scale * idx[i]],
the others keep their value, and only the selected elements are read. *)
Theorem C24_avx2_gather_masked :
  forall undef e scale (old : list (elt e)) ks m mem ix (idx : list Z), length undef = 16%nat -> Forall (fun b => 0 <= b < 256) undef ->
    (4 <= esize e)%nat -> byte_memory m -> index_values ix idx -> (32 / esize e <= length idx)%nat ->
    Forall (fun z => z < 2 ^ 31) idx -> length old = (32 / esize e)%nat -> length ks = (32 / esize e)%nat ->
    let n := (32 / esize e)%nat in
    let addr i := mem + znth 0 idx i * (scale * Z.of_nat (esize e)) in
    let g := y_gather_masked undef e scale (ypack old) (ymask_reg (esize e) ks) m mem ix in
    ((forall i, 0 <= i < Z.of_nat n -> znth false ks i = true -> readable m (addr i) (esize e)) ->
       exists xs : list (elt e), g = Some (ypack xs) /\ length xs = n /\
         forall i, 0 <= i < Z.of_nat n ->
           if znth false ks i then number_at m (addr i) (esize e) (uval (znth (w0 (esize e)) xs i))
           else znth (w0 (esize e)) xs i = znth (w0 (esize e)) old i) /\
    ((exists i j, 0 <= i < Z.of_nat n /\ znth false ks i = true /\ 0 <= j < Z.of_nat (esize e) /\ m (addr i + j) = None) -> g = None).
Proof. exact AvxGatherMain.C24_avx2_gather_masked_main. Qed.
Print Assumptions C24_avx2_gather_masked.

Example C24_avx2_gather_masked_ex :
  option_map (fun r => map uval (ylanes 4 r)) (y_gather_masked (repeat 0 16) Int 1 (ypack (map (mkw 4) [1; 2; 3; 4; 5; 6; 7; 8])) (ymask_reg 4 [true; false; true; false; false; false; false; true])
    (fun a => if (0 <=? a) && (a <? 40) then Some a else None) 16 (IxSse Short (pack (map (mkw 2) [0; 100; -1; 20; -40; 50; 99; 2]))))
  = Some [0x13121110; 2; 0x0f0e0d0c; 4; 5; 6; 7; 0x1b1a1918].
Proof.
  vm_compute. reflexivity.
Qed.

(** Finding: in AVX2 builds gather takes an unsigned index of 2 ^ 31 and more as negative (uint_v indexes; the generic code
of other builds does not): it reads the element at mem[idx - 2 ^ 32], below mem. *)
Theorem C24_avx2_index_refuted :
  forall undef scale m mem z, length undef = 16%nat -> byte_memory m -> 2 ^ 31 <= z < 2 ^ 32 ->
    forall r, y_gather undef Float scale m mem (IxAvx UInt (ypack (repeat (mkw 4 z) 8))) = Some r ->
      exists xs, r = ypack xs /\ length xs = 8%nat /\
        forall i, 0 <= i < 8 -> number_at m (mem + (z - 2 ^ 32) * (scale * 4)) 4 (uval (znth (w0 4) xs i)).
Proof. exact AvxGatherMain.C24_avx2_index_refuted_main. Qed.
Print Assumptions C24_avx2_index_refuted.

Example C24_avx2_index_refuted_ex :
  option_map (fun r => map uval (ylanes 4 r)) (y_gather (repeat 0 16) Float 1 (fun a => if (0 <=? a) && (a <? 40) then Some a else None) 16
    (IxAvx UInt (ypack (repeat (mkw 4 0xffffffff) 8)))) = Some (repeat 0x0f0e0d0c 8).
Proof.
  vm_compute. reflexivity.
Qed.

(** C24, short and unsigned short vectors of AVX2 builds gathered from 8-bit or 16-bit integers with 32-bit gathers: if
four bytes can be read at every element, entry i is the number stored at &mem[Scale * idx[i]] converted to the entry
type.  For the missing hypothesis on the memory see C24_avx2_gather16_refuted. *)
Theorem C24_avx2_gather16 :
  forall undef e mt scale m mem u (idx : list (elt u)), (st_size mt = 1 \/ st_size mt = 2)%nat -> esize e = 2%nat -> esize u = 2%nat ->
    byte_memory m -> length idx = 16%nat ->
    let addr i := mem + int_value u (znth (w0 (esize u)) idx i) * (scale * Z.of_nat (st_size mt)) in
    ((forall i, 0 <= i < 16 -> readable m (addr i) 4) ->
       exists rs : list (elt e), y_gather16 undef e mt scale m mem u (ypack idx) = Some (ypack rs) /\ length rs = 16%nat /\
         forall i, 0 <= i < 16 -> exists z, number_at m (addr i) (st_size mt) z /\
           (int_value e (znth (w0 (esize e)) rs i) - small_value mt z) mod 2 ^ 16 = 0) /\
    ((exists i j, 0 <= i < 16 /\ 0 <= j < 4 /\ m (addr i + j) = None) -> y_gather16 undef e mt scale m mem u (ypack idx) = None).
Proof. exact AvxGatherMain.C24_avx2_gather16_main. Qed.
Print Assumptions C24_avx2_gather16.

Example C24_avx2_gather16_ex :
  option_map (fun r => map sval (ylanes 2 r)) (y_gather16 (repeat 0 16) Short {| st_signed := true; st_size := 1 |} 1 (fun a => if (0 <=? a) && (a <? 40) then Some (250 + a * 0) else None) 16
    Short (ypack (map (mkw 2) [0; 1; -1; 2; -4; 5; 0; 0; 0; 1; 2; 3; 4; 5; 6; -16]))) = Some (repeat (-6) 16) /\
  option_map (fun r => map uval (ylanes 2 r)) (y_gather16 (repeat 0 16) UShort {| st_signed := false; st_size := 2 |} 1 (fun a => if (0 <=? a) && (a <? 40) then Some a else None) 16
    UShort (ypack (map (mkw 2) [0; 1; 2; 3; 4; 5; 6; 7; 8; 9; 10; 1; 2; 3; 4; 5]))) =
  Some [0x1110; 0x1312; 0x1514; 0x1716; 0x1918; 0x1b1a; 0x1d1c; 0x1f1e; 0x2120; 0x2322; 0x2524; 0x1312; 0x1514; 0x1716; 0x1918; 0x1b1a].
Proof.
  split; vm_compute; reflexivity.
Qed.

(** Finding: the 16-bit gathers of AVX2 builds read four bytes at every index.  Gathering the only element of an array at
the end of readable memory (indexes 0) is an invalid access, for every entry type, memory type and scale. *)
Theorem C24_avx2_gather16_refuted :
  forall undef e mt scale mem, (st_size mt = 1 \/ st_size mt = 2)%nat -> esize e = 2%nat ->
    exists m, byte_memory m /\ readable m mem (st_size mt) /\
      y_gather16 undef e mt scale m mem Short (ypack (repeat (w0 2) 16)) = None.
Proof. exact AvxGatherMain.C24_avx2_gather16_refuted_main. Qed.
Print Assumptions C24_avx2_gather16_refuted.

Example C24_avx2_gather16_refuted_ex :
  (st_size {| st_signed := true; st_size := 2 |} = 1 \/ st_size {| st_signed := true; st_size := 2 |} = 2)%nat /\ esize Short = 2%nat.
Proof.
  split; [now right|reflexivity].
Qed.

(** C24, the masked version: selected entries become the number stored at &mem[Scale * idx[i]] converted to the entry type
if four bytes can be read there, the others keep their value, and nothing is read for them. *)
Theorem C24_avx2_gather16_masked :
  forall undef e mt scale (old : list (elt e)) ks m mem u (idx : list (elt u)),
    (st_size mt = 1 \/ st_size mt = 2)%nat -> esize e = 2%nat -> esize u = 2%nat ->
    byte_memory m -> length idx = 16%nat -> length old = 16%nat -> length ks = 16%nat ->
    let addr i := mem + int_value u (znth (w0 (esize u)) idx i) * (scale * Z.of_nat (st_size mt)) in
    let g := y_gather16_masked undef e mt scale (ypack old) (ymask_reg (esize e) ks) m mem u (ypack idx) in
    ((forall i, 0 <= i < 16 -> znth false ks i = true -> readable m (addr i) 4) ->
       exists rs : list (elt e), g = Some (ypack rs) /\ length rs = 16%nat /\
         forall i, 0 <= i < 16 ->
           if znth false ks i
           then exists z, number_at m (addr i) (st_size mt) z /\ (int_value e (znth (w0 (esize e)) rs i) - small_value mt z) mod 2 ^ 16 = 0
           else znth (w0 (esize e)) rs i = znth (w0 (esize e)) old i) /\
    ((exists i j, 0 <= i < 16 /\ znth false ks i = true /\ 0 <= j < 4 /\ m (addr i + j) = None) -> g = None).
Proof. exact AvxGatherMain.C24_avx2_gather16_masked_main. Qed.
Print Assumptions C24_avx2_gather16_masked.

Example C24_avx2_gather16_masked_ex :
  option_map (fun r => map sval (ylanes 2 r)) (y_gather16_masked (repeat 0 16) Short {| st_signed := true; st_size := 1 |} 1 (ypack (map (mkw 2) [1; 2; 3; 4; 5; 6; 7; 8; 9; 10; 11; 12; 13; 14; 15; 16]))
    (ymask_reg 2 [true; false; false; true; false; false; false; false; true; false; true; true; false; false; false; true])
    (fun a => if (0 <=? a) && (a <? 40) then Some 250 else None) 16 Short (ypack (map (mkw 2) [0; 1000; -100; 2; -40; 500; 99; 99; 0; 99; 2; 3; 44; 55; 66; -16])))
  = Some [-6; 2; 3; -6; 5; 6; 7; 8; -6; 10; -6; -6; 13; 14; 15; -6].
Proof.
  vm_compute. reflexivity.
Qed.
