(** Which conversions C++ defines, and which loads Vc rejects. *)
From Coq Require Import ZArith List Bool.
From Verif.Spec Require Import Seq FloatSpec RoundSpec CastSpec.
From Verif.Model Require Import Word SseBuild SseReg Mem LoadStore.
Import ListNotations.
Local Open Scope Z_scope.

(** static_cast<to>(x) is defined: all but floating point to integer, which needs a finite value that is, truncated, a value of
    the integer type *)
Definition conversion_defined (from to : etype) (x : elt from) : Prop :=
  is_integer from = true \/ is_integer to = false \/
  (is_Finite x = true /\ in_range to (Z.quot (fvalue x) (fone (esize from)))).
(** the same for the element of type [mt] with bit pattern [v] *)
Definition element_defined (mt : mem_type) (e : etype) (v : Z) : Prop :=
  match mt with MElt u => conversion_defined u e (mkw (esize u) v) | _ => True end.
(** integers are not loaded from larger integers *)
Definition narrowing_load (e : etype) (mt : mem_type) : bool :=
  match mt with MElt u => is_integer u && is_integer e && (esize e <? esize u)%nat | _ => false end.
