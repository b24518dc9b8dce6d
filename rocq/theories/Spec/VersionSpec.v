(** Versions: major, minor, patch, and whether it is a development version (which comes after the release of the same numbers and
    before the next one). *)
From Coq Require Import ZArith Bool.
Local Open Scope Z_scope.

Record version := { v_major : Z; v_minor : Z; v_patch : Z; v_dev : bool }.
(** the older of two different versions *)
Definition older (v u : version) : Prop :=
  v_major v < v_major u \/ v_major v = v_major u /\
  (v_minor v < v_minor u \/ v_minor v = v_minor u /\
  (v_patch v < v_patch u \/ v_patch v = v_patch u /\ v_dev v = false /\ v_dev u = true)).
(** the numbers there is room for *)
Definition fits (v : version) : Prop := 0 <= v_major v < 2 ^ 15 /\ 0 <= v_minor v < 2 ^ 8 /\ 0 <= v_patch v < 2 ^ 7.
