(** Iteration over set mask entries, gather and scatter *)
From Coq Require Import ZArith List Bool Lia.
From Verif.Spec Require Import Seq NativeSpec MaskSpec OperandSpec GatherSpec.
From Verif.Model Require Import SplitSize SimdArray SimdArrayOps ScalarVec Mem SseMove SortNet SseInt SseBuild BitScan SseMask SseNative GatherScatter.
Import ListNotations.
Local Open Scope Z_scope.
From Verif.Proof Require GatherMain.

(** C20: for (size_t i : where(mask)) visits exactly the indexes of the true entries in ascending order and
stops, for every mask with up to 31 entries (any build, any SimdMaskArray or native mask). *)
Theorem C20_where_iteration :
  forall native K n (m : sa bool), widths_ok native -> native_masks_ok native K -> wf native n m -> (n <= 31)%nat ->
    exists v, to_int K m = Some v /\ where_indices v = Some (true_indices (to_list m)).
Proof. exact GatherMain.C20_where_iteration_main. Qed.
Print Assumptions C20_where_iteration.

Example C20_where_iteration_ex :
  native_masks_ok (sse_native 2) (sse_mask_ops true true 2) /\
  where_indices (to_int_spec [false; true; true; false; false; true]) = Some [1; 2; 5] /\ true_indices [false; true; true; false; false; true] = [1; 2; 5].
Proof.
  split; [apply SseMaskP.sse_masks; unfold SseMoveP.width_ok; auto|split; reflexivity].
Qed.

(** C20: what "the indexes of the true entries in ascending order" means. *)
Theorem C20_true_indices :
  forall m, (forall i, In i (true_indices m) <-> 0 <= i < Z.of_nat (length m) /\ znth false m i = true) /\
    NoDup (true_indices m) /\ forall l1 i l2 j l3, true_indices m = l1 ++ i :: l2 ++ j :: l3 -> i < j.
Proof. exact GatherMain.C20_true_indices_main. Qed.
Print Assumptions C20_true_indices.

Example C20_true_indices_ex :
  true_indices [true; false; true] = [0; 2].
Proof.
  reflexivity.
Qed.

(** Finding: with 32 entries and the last one set, toInt() is negative and its conversion to size_t sets bits
32 to 63: the loop visits 32 indexes that do not exist. *)
Theorem C20_where_iteration_refuted :
  forall native K (m : sa bool), widths_ok native -> native_masks_ok native K -> wf native 32 m ->
    znth false (to_list m) 31 = true ->
    exists v, to_int K m = Some v /\
      where_indices v = Some (true_indices (to_list m) ++ tab 32 (fun i => 32 + i)).
Proof. exact GatherMain.C20_where_iteration_refuted_main. Qed.
Print Assumptions C20_where_iteration_refuted.

Example C20_where_iteration_refuted_ex :
  widths_ok scalar_native /\ native_masks_ok scalar_native scalar_mask_ops /\
  wf scalar_native 32 (generate scalar_native 32 (fun i => 20 <=? i)) /\
  znth false (to_list (generate scalar_native 32 (fun i => 20 <=? i))) 31 = true.
Proof.
  split; [exact ScalarVecP.scalar_widths|]. split; [exact ScalarVecP.scalar_masks|]. split; [|reflexivity].
  apply (SimdArrayP.generate_wf scalar_native ScalarVecP.scalar_widths). lia.
Qed.

(** C24: gather without mask, every N, in SSE builds: entry i becomes mem[idx[i]]; exactly these addresses are
read (with one of them invalid the access is invalid, all other memory is irrelevant). *)
Theorem C24_sse_gather :
  forall (A : Type) (zero : A) e n (t : sa A) x m mem, wf (sse_native (esize e)) n t -> index_ok n x ->
    (mapped m mem (index_at x) n (fun _ => true) ->
       exists r, sse_gather m mem x t = Some r /\ wf (sse_native (esize e)) n r /\
         gathered zero m mem (index_at x) (fun _ => true) (to_list t) (to_list r)) /\
    ((exists i, 0 <= i < Z.of_nat n /\ m (mem + index_at x i) = None) -> sse_gather m mem x t = None).
Proof. exact GatherMain.C24_sse_gather_main. Qed.
Print Assumptions C24_sse_gather.

Example C24_sse_gather_ex :
  index_ok 5 (IxPointer [7; 0; 3; 3; 9; 1] 0) /\
  index_ok 5 (IxOperand (OTree (generate (sse_native 4) 5 (fun i => 10 - i)))) /\
  option_map (@to_list Z) (sse_gather (fun a => if (100 <=? a) && (a <? 110) then Some (a * 2) else None) 100 (IxPointer [7; 0; 3; 3; 9; 1] 0)
    (generate (sse_native 4) 5 (fun i => 0))) = Some [214; 200; 206; 206; 218].
Proof.
  split; [cbn; lia|]. split; [|vm_compute; reflexivity]. exists (sse_native 4).
  split; [exact (SseBuildP.build_widths Float)|]. apply (SimdArrayP.generate_wf (sse_native 4) (SseBuildP.build_widths Float)). lia.
Qed.

(** C24: gather with mask, every N, every strategy but SetIndexZero: selected entries become mem[idx[i]], the
others keep their value, and only selected addresses are read. *)
Theorem C24_sse_gather_masked :
  forall (A : Type) (zero : A) e st hw n (t : sa A) (k : sa bool) x m mem, st <> SetIndexZero ->
    wf (sse_native (esize e)) n t -> wf (sse_native (esize e)) n k -> index_ok n x ->
    let sel := znth false (to_list k) in
    (mapped m mem (index_at x) n sel ->
       exists r, sse_gather_mask st hw (esize e) m mem x k t = Some r /\ wf (sse_native (esize e)) n r /\
         gathered zero m mem (index_at x) sel (to_list t) (to_list r)) /\
    ((exists i, 0 <= i < Z.of_nat n /\ sel i = true /\ m (mem + index_at x i) = None) ->
       sse_gather_mask st hw (esize e) m mem x k t = None).
Proof. exact GatherMain.C24_sse_gather_masked_main. Qed.
Print Assumptions C24_sse_gather_masked.

Example C24_sse_gather_masked_ex :
  option_map (@to_list Z) (sse_gather_mask PopcntSwitch false 2 (fun a => if (100 <=? a) && (a <? 110) then Some (a * 2) else None) 100
    (IxPointer [7; 0; 300; 3; 9; 1; 1; 1; 1; 5] 0) (generate (sse_native 2) 10 (fun i => negb (i =? 2))) (generate (sse_native 2) 10 (fun i => - i)))
  = Some [214; 200; -2; 206; 218; 202; 202; 202; 202; 210].
Proof.
  vm_compute. reflexivity.
Qed.

(** C24, strategy SetIndexZero (used with the AVX2-style build option): right only if mem[0] may be read.
Missing: an invalid mem[0] although no selected index is 0 (see the next theorem). *)
Theorem C24_sse_gather_zero_index_partial :
  forall (A : Type) (zero : A) hw mask (v : list A) m mem idx, length mask = length v ->
    let sel := znth false mask in
    mapped m mem idx (length v) sel -> m mem <> None ->
    exists r, gather_masked SetIndexZero hw m mem idx mask (to_int_spec mask) v = Some r /\ gathered zero m mem idx sel v r.
Proof. exact GatherMain.C24_sse_gather_zero_index_partial_main. Qed.
Print Assumptions C24_sse_gather_zero_index_partial.

Example C24_sse_gather_zero_index_partial_ex :
  gather_masked SetIndexZero false (fun a => if a <? 104 then Some a else None) 100 (fun i => 3) [true; false] 1 [7; 8] = Some [103; 8].
Proof.
  reflexivity.
Qed.

(** Finding: with SetIndexZero, gather reads mem[0] as soon as one entry is not selected, even if no index is 0. *)
Theorem C24_gather_zero_index_refuted :
  forall (A : Type) hw mask (v : list A) (m : memory A) mem idx, length mask = length v ->
    (exists i, 0 <= i < Z.of_nat (length v) /\ znth false mask i = false) -> m mem = None ->
    gather_masked SetIndexZero hw m mem idx mask (to_int_spec mask) v = None.
Proof. exact GatherMain.C24_gather_zero_index_refuted_main. Qed.
Print Assumptions C24_gather_zero_index_refuted.

Example C24_gather_zero_index_refuted_ex :
  gather_masked SetIndexZero false (fun a => if a =? 103 then Some a else None) 100 (fun i => 3) [true; false] 1 [7; 8] = None.
Proof.
  reflexivity.
Qed.

(** Finding: the interface accepts an index SimdArray with more entries than the vector, but it is split at
its own half, not at the vector's: with 5 float entries and 16 indexes, entry 4 uses index 8 instead of 4,
whatever the indexes and the memory. *)
Theorem C24_gather_larger_index_refuted :
  forall (A : Type) (zero : A) (f : Z -> Z) (m : memory A) mem (t : sa A), wf (sse_native 4) 5 t ->
    let x := IxOperand (OTree (generate (sse_native 4) 16 f)) in
    (forall i, 0 <= i < 16 -> index_at x i = f i) /\
    forall r, sse_gather m mem x t = Some r -> m (mem + f 8) = Some (znth zero (to_list r) 4).
Proof. exact GatherMain.C24_gather_larger_index_refuted_main. Qed.
Print Assumptions C24_gather_larger_index_refuted.

Example C24_gather_larger_index_refuted_ex :
  option_map (@to_list Z) (sse_gather (fun a => Some a) 0 (IxOperand (OTree (generate (sse_native 4) 16 (fun i => i)))) (generate (sse_native 4) 5 (fun _ => 0)))
  = Some [0; 1; 2; 3; 8].
Proof.
  reflexivity.
Qed.

(** C25: scatter without mask, every N: v[i] is written to mem[idx[i]], for equal indexes the highest i wins,
all other memory keeps its value, and no invalid address but the given ones matters. *)
Theorem C25_sse_scatter :
  forall (A : Type) (zero : A) e n (t : sa A) x m mem, wf (sse_native (esize e)) n t -> index_ok n x ->
    (mapped m mem (index_at x) n (fun _ => true) ->
       exists m', sse_scatter zero t mem x m = Some m' /\ scattered_last zero (to_list t) mem (index_at x) (fun _ => true) m m') /\
    ((exists i, 0 <= i < Z.of_nat n /\ m (mem + index_at x i) = None) -> sse_scatter zero t mem x m = None).
Proof. exact GatherMain.C25_sse_scatter_main. Qed.
Print Assumptions C25_sse_scatter.

Example C25_sse_scatter_ex :
  option_map (fun m' : memory Z => map m' [100; 101; 102; 103; 104])
    (sse_scatter 0 (generate (sse_native 4) 5 (fun i => i + 1)) 100 (IxPointer [4; 1; 1; 0; 4] 0) (fun a => if (100 <=? a) && (a <? 110) then Some 0 else None))
  = Some [Some 4; Some 3; Some 0; Some 0; Some 5].
Proof.
  vm_compute. reflexivity.
Qed.

(** C25: scatter with mask, default strategy (SimpleLoop): the same for the selected entries. *)
Theorem C25_sse_scatter_masked :
  forall (A : Type) (zero : A) e hw n (t : sa A) (k : sa bool) x m mem,
    wf (sse_native (esize e)) n t -> wf (sse_native (esize e)) n k -> index_ok n x ->
    let sel := znth false (to_list k) in
    (mapped m mem (index_at x) n sel ->
       exists m', sse_scatter_mask zero SimpleLoop hw (esize e) t mem x k m = Some m' /\
         scattered_last zero (to_list t) mem (index_at x) sel m m') /\
    ((exists i, 0 <= i < Z.of_nat n /\ sel i = true /\ m (mem + index_at x i) = None) ->
       sse_scatter_mask zero SimpleLoop hw (esize e) t mem x k m = None).
Proof. exact GatherMain.C25_sse_scatter_masked_main. Qed.
Print Assumptions C25_sse_scatter_masked.

Example C25_sse_scatter_masked_ex :
  option_map (fun m' : memory Z => map m' [100; 101; 102; 103; 104])
    (sse_scatter_mask 0 SimpleLoop false 4 (generate (sse_native 4) 5 (fun i => i + 1)) 100 (IxPointer [4; 1; 1; 0; 99] 0)
      (generate (sse_native 4) 5 (fun i => negb (i =? 4))) (fun a => if (100 <=? a) && (a <? 110) then Some 0 else None))
  = Some [Some 4; Some 3; Some 0; Some 0; Some 1].
Proof.
  vm_compute. reflexivity.
Qed.

(** C25: the other writing strategies (BitScanLoop, PopcntSwitch): each address hit by a selected entry holds the
value of one such entry, hence with distinct indexes every selected v[i] is at mem[idx[i]]; all other memory
is unchanged.  Missing: equal indexes (see the next theorem). *)
Theorem C25_sse_scatter_strategies_partial :
  forall (A : Type) (zero : A) e st hw n (t : sa A) (k : sa bool) x m mem, st <> SetIndexZero ->
    wf (sse_native (esize e)) n t -> wf (sse_native (esize e)) n k -> index_ok n x ->
    let sel := znth false (to_list k) in
    (mapped m mem (index_at x) n sel ->
       exists m', sse_scatter_mask zero st hw (esize e) t mem x k m = Some m' /\
         scattered zero (to_list t) mem (index_at x) sel m m' /\
         ((forall i j, 0 <= i < Z.of_nat n -> 0 <= j < Z.of_nat n -> sel i = true -> sel j = true ->
             index_at x i = index_at x j -> i = j) ->
          forall i, 0 <= i < Z.of_nat n -> sel i = true -> m' (mem + index_at x i) = Some (znth zero (to_list t) i))) /\
    ((exists i, 0 <= i < Z.of_nat n /\ sel i = true /\ m (mem + index_at x i) = None) ->
       sse_scatter_mask zero st hw (esize e) t mem x k m = None).
Proof. exact GatherMain.C25_sse_scatter_strategies_partial_main. Qed.
Print Assumptions C25_sse_scatter_strategies_partial.

Example C25_sse_scatter_strategies_partial_ex :
  option_map (fun m' : memory Z => map m' [100; 101; 102; 103; 104])
    (sse_scatter_mask 0 PopcntSwitch true 4 (generate (sse_native 4) 5 (fun i => i + 1)) 100 (IxPointer [4; 1; 2; 0; 99] 0)
      (generate (sse_native 4) 5 (fun i => negb (i =? 4))) (fun a => if (100 <=? a) && (a <? 110) then Some 0 else None))
  = Some [Some 4; Some 2; Some 3; Some 0; Some 1].
Proof.
  vm_compute. reflexivity.
Qed.

(** Finding: with equal indexes the strategies disagree.  All four entries of a vector are scattered to one
address: the loop leaves the last entry there, BitScanLoop (which goes from both ends inwards) entry 2, whatever the values.
With three of them (0, 1, 3), PopcntSwitch leaves entry 1. *)
Theorem C25_scatter_order_refuted :
  forall (A : Type) (zero : A) hw a b c d (m : memory A) p, m p <> None ->
    let v := [a; b; c; d] in
    let all := [true; true; true; true] in
    let some := [true; true; false; true] in
    option_map (fun m' => m' p) (scatter_masked zero SimpleLoop hw v p (fun _ => 0) all (to_int_spec all) m) = Some (Some d) /\
    option_map (fun m' => m' p) (scatter_masked zero BitScanLoop hw v p (fun _ => 0) all (to_int_spec all) m) = Some (Some c) /\
    option_map (fun m' => m' p) (scatter_masked zero SimpleLoop hw v p (fun _ => 0) some (to_int_spec some) m) = Some (Some d) /\
    option_map (fun m' => m' p) (scatter_masked zero PopcntSwitch hw v p (fun _ => 0) some (to_int_spec some) m) = Some (Some b).
Proof. exact GatherMain.C25_scatter_order_refuted_main. Qed.
Print Assumptions C25_scatter_order_refuted.

Example C25_scatter_order_refuted_ex :
  (fun _ : Z => Some 0) 100 <> None.
Proof.
  discriminate.
Qed.

(** Finding: the scatter variant SetIndexZero never writes: it gathers from memory instead. *)
Theorem C25_scatter_zero_index_refuted :
  forall (A : Type) (zero : A) hw mask (v : list A) (m m' : memory A) mem idx,
    scatter_masked zero SetIndexZero hw v mem idx mask (to_int_spec mask) m = Some m' -> m' = m.
Proof. exact GatherMain.C25_scatter_zero_index_refuted_main. Qed.
Print Assumptions C25_scatter_zero_index_refuted.

Example C25_scatter_zero_index_refuted_ex :
  match scatter_masked 0 SetIndexZero false [5; 6] 100 (fun i => i) [true; true] 3 (fun a => Some 0) with Some m => m 100 = Some 0 | None => False end.
Proof.
  reflexivity.
Qed.
