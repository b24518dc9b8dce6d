(** programs give the same results in every build *)
From Coq Require Import ZArith List Bool Lia.
From Verif.Spec Require Import Seq MaskSpec VectorSpec PortableSpec.
From Verif.Model Require Import Word SseBuild SimdArray Mem MaskedDiv Program Portable.
Import ListNotations.
Local Open Scope Z_scope.
From Verif.Proof Require PortableMain.

(** A program that calls the operations of SimdArray<T, N> and SimdMaskArray<T, N> (T an integer type), with any other code
between the calls, and whose behaviour is defined when the operations act entry by entry as the C++ operators do, has
exactly that behaviour in every build: the same memory, the same values of all other variables and the same entries of all
vectors and masks. *)
Theorem C76_portable_partial :
  forall b e n H (p : prog (elt e) H) fuel m h s, is_integer e = true -> (1 <= n)%nat ->
    run (reference e n) fuel p (start (repeat (w0 _) n) (repeat false n) m h) = Some s ->
    exists s', run (implementation b e n) fuel p (start (b_zero b e n) (b_none b e n) m h) = Some s' /\
      hs s' = hs s /\ (forall a, mm s' a = mm s a) /\
      (forall i, to_list (vr s' i) = vr s i) /\ (forall i, to_list (mr s' i) = mr s i).
Proof. exact PortableMain.C76_portable_partial_main. Qed.
Print Assumptions C76_portable_partial.

Example C76_portable_partial_ex :
  let e := Int in let n := 5%nat in let val (a : elt e) := sval a in
  (* for (i = 0; i < 10; i += 5) { x.load(p + i); y = x * x; where(y > 50) | y = x; y.store(p + i); acc += y.sum(); } *)
  let body := PSeq (PDo (ILoad 0 (fun h : Z * Z => fst h))) (PSeq (PDo (IArith OMul 1 0 0)) (PSeq (PDo (IGenerate 2 (fun _ _ => mkw 4 50)))
    (PSeq (PDo (ICompare OGt 0 1 2)) (PSeq (PDo (IAssign 1 0 0)) (PSeq (PDo (IStore 1 (fun h => fst h)))
    (PDo (IReduce RSum 1 (fun a h => (fst h + 5, snd h + val a))))))))) in
  let m : memory (elt e) := fun a => if (0 <=? a) && (a <? 10) then Some (mkw 4 (a - 2)) else None in
  option_map (fun s => (hs s, map (fun a => option_map val (mm s (Z.of_nat a))) (seq 0 11)))
    (run (reference e n) 40 (PWhile (fun h => fst h <? 10) body) (start (repeat (w0 _) n) (repeat false n) m (0, 0)))
  = Some ((10, 145), [Some 4; Some 1; Some 0; Some 1; Some 4; Some 9; Some 16; Some 25; Some 36; Some 49; None] : list (option Z)).
Proof.
  vm_compute. reflexivity.
Qed.

(** Two builds: the same program leaves the same memory, the same variables and the same entries of vectors and masks. *)
Theorem C76_builds_agree_partial :
  forall b b' e n H (p : prog (elt e) H) fuel m h, is_integer e = true -> (1 <= n)%nat ->
    run (reference e n) fuel p (start (repeat (w0 _) n) (repeat false n) m h) <> None ->
    exists s s', run (implementation b e n) fuel p (start (b_zero b e n) (b_none b e n) m h) = Some s /\
      run (implementation b' e n) fuel p (start (b_zero b' e n) (b_none b' e n) m h) = Some s' /\
      hs s = hs s' /\ (forall a, mm s a = mm s' a) /\
      (forall i, to_list (vr s i) = to_list (vr s' i)) /\ (forall i, to_list (mr s i) = to_list (mr s' i)).
Proof. exact PortableMain.C76_builds_agree_partial_main. Qed.
Print Assumptions C76_builds_agree_partial.

Example C76_builds_agree_partial_ex :
  let b := {| b_impl := DScalar; b_ssse3 := false; b_ptest := false; b_popcnt := false; b_constant := false |} in
  let b' := {| b_impl := DAvx true true; b_ssse3 := true; b_ptest := true; b_popcnt := true; b_constant := true |} in
  (* x.gather(p, {0, 2, 4, ...}); y = x.sorted() * x; y.scatter(p, {0, 0, 1, 1, 2, 2}, x != y); acc = abs(y).sum(x != y);
     (z, w) = interleave(x, x.sorted().partialSum()); acc += 1000 * w.shifted(4).shifted(-2, z)[2]; *)
  let p := PSeq (PDo (IGather 0 (fun _ : Z => 0) (fun _ i => 2 * i) None)) (PSeq (PDo (IMove (fun _ => MSort) 1 0)) (PSeq (PDo (IArith OMul 2 0 1))
    (PSeq (PDo (ICompare ONe 0 0 2)) (PSeq (PDo (IScatter 2 (fun _ => 0) (fun _ i => i / 2) (Some 0%nat)))
    (PSeq (PDo (IUnary UAbs 2 2)) (PSeq (PDo (IReduceMask RSum 2 0 (fun (a : elt Short) _ => sval a)))
    (PSeq (PDo (IMove (fun _ => MPartialSum) 1 1)) (PSeq (PDo (IInterleave 1 3 0 1)) (PSeq (PDo (IMove (fun _ => MShift 4) 3 3))
    (PSeq (PDo (IShiftIn 3 3 (fun _ => -2) 1)) (PDo (IGet 3 (fun _ => 2) (fun (a : elt Short) h => h + 1000 * sval a))))))))))))) in
  let m : memory (elt Short) := fun a => if (0 <=? a) && (a <? 11) then Some (mkw 2 (7 - 3 * a)) else None in
  let out A B (s : option (state (elt Short) Z A B)) := option_map (fun s => (hs s, map (fun a => option_map sval (mm s (Z.of_nat a))) (seq 0 4))) s in
  out _ _ (run (reference Short 6) 20 p (start (repeat (w0 _) 6) (repeat false 6) m 0)) = Some (-22551, [Some (-17); Some 55; Some (-161); Some (-2)] : list (option Z)) /\
  out _ _ (run (implementation b Short 6) 20 p (start (b_zero b Short 6) (b_none b Short 6) m 0)) = Some (-22551, [Some (-17); Some 55; Some (-161); Some (-2)] : list (option Z)) /\
  out _ _ (run (implementation b' Short 6) 20 p (start (b_zero b' Short 6) (b_none b' Short 6) m 0)) = Some (-22551, [Some (-17); Some 55; Some (-161); Some (-2)] : list (option Z)).
Proof.
  vm_compute. repeat split; reflexivity.
Qed.

(** With a mask that selects nothing sum(mask) is 0 and product(mask) is 1, in every build. *)
Theorem C14_empty_mask :
  forall b e n t k, is_integer e = true -> (1 <= n)%nat -> wf (b_native b e) n t -> wf (b_native b e) n k -> (forall c, In c (to_list k) -> c = false) ->
    o_reduce_mask (implementation b e n) RSum t k = Some (mkw _ 0) /\ o_reduce_mask (implementation b e n) RProduct t k = Some (mkw _ 1).
Proof. exact PortableMain.C14_empty_mask_main. Qed.
Print Assumptions C14_empty_mask.

Example C14_empty_mask_ex :
  let b := {| b_impl := DSse true; b_ssse3 := true; b_ptest := true; b_popcnt := true; b_constant := true |} in
  let t := generate (b_native b Int) 7 (fun i => mkw 4 (i + 3)) in let k := b_none b Int 7 in
  wf (b_native b Int) 7 t /\ wf (b_native b Int) 7 k /\ (forall c, In c (to_list k) -> c = false) /\
  option_map sval (o_reduce_mask (implementation b Int 7) RProduct t k) = Some 1.
Proof.
  intros b t k. split; [apply PortableMain.generate_wf; [reflexivity|lia]|]. split; [apply PortableMain.generate_wf; [reflexivity|lia]|].
  split; [|vm_compute; reflexivity]. intros c Hc. assert (E : to_list k = [false; false; false; false; false; false; false]) by (vm_compute; reflexivity). rewrite E in Hc. repeat (destruct Hc as [<-|Hc]; [reflexivity|]). destruct Hc.
Qed.

(** Where the reference leaves a result open the builds differ: short(-32768) / short(-1).  C++ computes 32768 as int and
converts it to short, which is -32768 on every compiler Vc supports; the SSE build gives 32767. *)
Theorem C76_short_division_refuted :
  exists (b b' : build) (p : prog (elt Short) Z) (s s' : state (elt Short) Z (sa (elt Short)) (sa bool)), let m : memory (elt Short) := fun _ => None in
    run (implementation b Short 8) 10 p (start (b_zero b Short 8) (b_none b Short 8) m 0) = Some s /\ hs s = -32768 /\
    run (implementation b' Short 8) 10 p (start (b_zero b' Short 8) (b_none b' Short 8) m 0) = Some s' /\ hs s' = 32767.
Proof. exact PortableMain.C76_short_division_refuted_main. Qed.
Print Assumptions C76_short_division_refuted.
