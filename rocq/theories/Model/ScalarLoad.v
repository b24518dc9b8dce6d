(** Loads and stores of SimdArrays in the Scalar build, where every leaf is a Scalar::Vector<T>, on a memory of bytes. *)
From Coq Require Import ZArith List Bool.
From Verif.Spec Require Import Seq.
From Verif.Model Require Import Word SplitSize SseReg SseMove SortNet SseInt SseBuild SimdArray SimdArrayOps Mem ScalarVec LoadStore.
Import ListNotations.
Local Open Scope Z_scope.

(** simdarray.h:285-296, 935-940 with scalar/vector.tcc:55-64 *)
Definition scalar_array_load (e : etype) (mt : mem_type) (m : memory Z) (n : nat) (a : Z) : option (sa (elt e)) :=
  load_bytes scalar_native (fun _ p => option_map (fun x => [x]) (scalar_load e mt m p)) (mt_size mt) n a.

(** scalar/vector.tcc:67-72: mem\[0\] = m_data with the C++ conversion to the type u of the memory.  Simplification: no
    characters. *)
Definition scalar_store (e u : etype) (xs : list (elt e)) (m : memory Z) (a : Z) : option (memory Z) :=
  match xs with
  | [x] => y <-- scalar_convert u (MElt e) (enc x); mem_store m a (enc y)
  | _ => None
  end.
(** scalar/vector.tcc:73-79 *)
Definition scalar_store_masked (e u : etype) (xs : list (elt e)) (ks : list bool) (m : memory Z) (a : Z) : option (memory Z) :=
  match ks with
  | [k] => if k then scalar_store e u xs m a else Some m
  | _ => None
  end.
(** simdarray.h:298-308, 942-947 *)
Definition scalar_array_store (e u : etype) (t : sa (elt e)) (m : memory Z) (a : Z) : option (memory Z) :=
  store_bytes (scalar_store e u) (esize u) t m a.
Definition scalar_array_store_masked (e u : etype) (t : sa (elt e)) (k : sa bool) (m : memory Z) (a : Z) : option (memory Z) :=
  store_bytes_masked (scalar_store_masked e u) (esize u) t k m a.
