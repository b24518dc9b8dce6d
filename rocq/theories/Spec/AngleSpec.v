(** The angle of a point of the plane. *)
From Coq Require Import Reals.
Local Open Scope R_scope.

(** (x, y) = (r cos t, r sin t) with r = sqrt (x^2 + y^2) and - PI <= t <= PI *)
Definition is_angle (y x t : R) : Prop :=
  - PI <= t <= PI /\ x = sqrt (x * x + y * y) * cos t /\ y = sqrt (x * x + y * y) * sin t.
