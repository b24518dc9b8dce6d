(** loads and stores of the Scalar build (proofs). *)
From Coq Require Import ZArith List Bool Lia.
From Verif.Spec Require Import Seq NativeSpec CastSpec ByteMemSpec LoadSpec ScalarLoadSpec.
From Verif.Model Require Import Word SseReg SseBuild SimdArray SimdArrayOps Mem ScalarVec LoadStore ScalarLoad.
Import ListNotations.
Local Open Scope Z_scope.
From Verif.Proof Require Import ScalarLoadP.

Lemma C50_scalar_load_main :
  forall e mt m n a vs, (1 <= n)%nat -> narrowing_load e mt = false -> length vs = n -> elements_at m a mt vs ->
    (Forall (element_defined mt e) vs ->
       exists t, scalar_array_load e mt m n a = Some t /\ wf scalar_native n t /\ Forall2 (converted mt e) vs (to_list t)) /\
    (Exists (fun v => ~ element_defined mt e v) vs -> scalar_array_load e mt m n a = None).
Proof.
  intros e mt m n a vs Hn S L H. exact (scalar_tree_load e mt m S n n a vs (conj Hn (le_n n)) L H).
Qed.

Lemma C51_scalar_store_main :
  forall e u n t m a, wf scalar_native n t -> readable m a (n * esize u) -> Forall (conversion_defined e u) (to_list t) ->
    exists ys m', scalar_array_store e u t m a = Some m' /\ Forall2 (cast_ok e u) (to_list t) ys /\ stored m a ys (repeat true n) m'.
Proof.
  exact scalar_array_all.
Qed.

Lemma C51_scalar_store_masked_main :
  forall e u n t k m a, wf scalar_native n t -> wf scalar_native n k -> writable m a (esize u) (to_list k) ->
    (forall i, 0 <= i < Z.of_nat (length (to_list t)) -> znth false (to_list k) i = true -> conversion_defined e u (znth (w0 _) (to_list t) i)) ->
    exists ys m', scalar_array_store_masked e u t k m a = Some m' /\ Forall2 (cast_ok e u) (to_list t) ys /\ stored m a ys (to_list k) m'.
Proof.
  exact scalar_array_masked.
Qed.
