(** loads and stores of the Scalar build *)
From Coq Require Import ZArith List Bool Lia.
From Verif.Spec Require Import Seq NativeSpec CastSpec ByteMemSpec LoadSpec ScalarLoadSpec.
From Verif.Model Require Import Word SseReg SseBuild SimdArray SimdArrayOps Mem ScalarVec LoadStore ScalarLoad.
Import ListNotations.
Local Open Scope Z_scope.
From Verif.Proof Require ScalarLoadMain.

(** SimdArray<T, N>::load from a pointer to U in the Scalar build, every N, T and U that compile: with N elements of type U at the address
entry i is the i-th element converted to T as by static_cast, for floating-point U and integer T too.  The load is undefined
exactly if one of the conversions is. *)
Theorem C50_scalar_load :
  forall e mt m n a vs, (1 <= n)%nat -> narrowing_load e mt = false -> length vs = n -> elements_at m a mt vs ->
    (Forall (element_defined mt e) vs ->
       exists t, scalar_array_load e mt m n a = Some t /\ wf scalar_native n t /\ Forall2 (converted mt e) vs (to_list t)) /\
    (Exists (fun v => ~ element_defined mt e v) vs -> scalar_array_load e mt m n a = None).
Proof. exact ScalarLoadMain.C50_scalar_load_main. Qed.
Print Assumptions C50_scalar_load.

Example C50_scalar_load_ex :
  let m : memory Z := fun a => nth (Z.to_nat a) (map Some (bytes 4 0xc2c90000 ++ bytes 4 0x3fffffff ++ bytes 4 0x477fff80)) None in
  narrowing_load UShort (MElt Float) = false /\
  option_map (fun t => map sval (to_list t)) (scalar_array_load Int (MElt Float) m 3 0) = Some [-100; 1; 65535] /\
  option_map (fun t => map uval (to_list t)) (scalar_array_load UShort (MElt Float) m 2 4) = Some [1; 65535] /\
  option_map (fun t => map uval (to_list t)) (scalar_array_load UShort (MElt Float) m 2 0) = None /\
  option_map (fun t => map uval (to_list t)) (scalar_array_load Short (MElt Float) m 2 4) = None.
Proof.
  split; [reflexivity|]. split; [vm_compute; reflexivity|]. split; [vm_compute; reflexivity|]. split; vm_compute; reflexivity.
Qed.

(** SimdArray<T, N>::store to a pointer to U in the Scalar build: element i of the memory becomes entry i converted to U as by static_cast, and
no other byte changes. *)
Theorem C51_scalar_store :
  forall e u n t m a, wf scalar_native n t -> readable m a (n * esize u) -> Forall (conversion_defined e u) (to_list t) ->
    exists ys m', scalar_array_store e u t m a = Some m' /\ Forall2 (cast_ok e u) (to_list t) ys /\ stored m a ys (repeat true n) m'.
Proof. exact ScalarLoadMain.C51_scalar_store_main. Qed.
Print Assumptions C51_scalar_store.

Example C51_scalar_store_ex :
  let m : memory Z := fun a => if (8 <=? a) && (a <? 14) then Some 7 else None in
  let t := generate scalar_native 3 (fun i => mkw 4 (70000 * i - 1)) in
  option_map (fun m' => map m' [7; 8; 9; 10; 11; 12; 13; 14]) (scalar_array_store Int Short t m 8) =
  Some [None; Some 255; Some 255; Some 111; Some 17; Some 223; Some 34; None].
Proof.
  vm_compute. reflexivity.
Qed.

(** the same with a mask in the Scalar build: exactly the selected elements are written, and only they need valid memory and a defined
conversion. *)
Theorem C51_scalar_store_masked :
  forall e u n t k m a, wf scalar_native n t -> wf scalar_native n k -> writable m a (esize u) (to_list k) ->
    (forall i, 0 <= i < Z.of_nat (length (to_list t)) -> znth false (to_list k) i = true -> conversion_defined e u (znth (w0 _) (to_list t) i)) ->
    exists ys m', scalar_array_store_masked e u t k m a = Some m' /\ Forall2 (cast_ok e u) (to_list t) ys /\ stored m a ys (to_list k) m'.
Proof. exact ScalarLoadMain.C51_scalar_store_masked_main. Qed.
Print Assumptions C51_scalar_store_masked.

Example C51_scalar_store_masked_ex :
  let m : memory Z := fun a => if (8 <=? a) && (a <? 12) then Some 7 else None in
  let t := generate scalar_native 3 (fun i => mkw 4 (if i =? 0 then 0x41280000 else 0x7f800000)) in
  let k := generate scalar_native 3 (fun i => i =? 0) in
  option_map (fun m' => map m' [7; 8; 9; 10; 11; 12]) (scalar_array_store_masked Float UShort t k m 8) =
  Some [None; Some 10; Some 0; Some 7; Some 7; None].
Proof.
  vm_compute. reflexivity.
Qed.
