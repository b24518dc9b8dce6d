(** several members of objects at once: tie(v0, v1, ...) = data[indexes][&S::member] *)
From Coq Require Import ZArith List Bool Lia.
From Verif.Spec Require Import Seq SubscriptSpec InterleaveSpec TieSpec.
From Verif.Model Require Import SimdArray Mem Tie.
Import ListNotations.
Local Open Scope Z_scope.
From Verif.Proof Require TieMain.

(** Entry e of vector c is the c-th number from the member of object indexes[e] on, provided the objects that the last index vector
counts are larger than 8 bytes, or are the numbers themselves.  Missing: objects of up to 8 bytes, see C73_tie_small_refuted. *)
Theorem C73_tie_partial :
forall (A : Type) (zero : A) b n c w k st S p idx data (m : memory A),
  match b with SseOrScalar => In n [1; 2; 4; 8]%nat | AvxVectors => In n [4; 8; 16]%nat end -> (2 <= c <= 8)%nat ->
  is_simd st = true -> expression k st n w S p idx ->
  (indexed_size (sizeof S) S p = w \/ 8 < indexed_size (sizeof S) S p) ->
  let at_ := fun e => data + place S p idx e in
  consecutive_mapped n (match b with SseOrScalar => members_read n c | AvxVectors => avx_members_read n c Interleave.AnyIndex end) w at_ m ->
  exists vs, tie_assign zero b n c w k st S data idx p m = Some vs /\ consecutive_read n c w at_ m vs.
Proof. exact TieMain.C73_tie_partial_main. Qed.
Print Assumptions C73_tie_partial.

Example C73_tie_partial_ex :
expression IxInt InVector 4 4 point3 [Member 0] [3; 0; 1; 1] /\ indexed_size (sizeof point3) point3 [Member 0] = 12 /\
tie_assign 0 SseOrScalar 4 3 4 IxInt InVector point3 1000 [3; 0; 1; 1] [Member 0] (fun a => Some (a - 1000)) = Some [[36; 0; 12; 12]; [40; 4; 16; 16]; [44; 8; 20; 20]].
Proof.
split; [|split; vm_compute; reflexivity].
unfold point3. split; [|split; [|split; [|split; [|split]]]].
- cbn. repeat split; try lia; try (right; right; left; reflexivity); first [exists 0; lia|exists 1; lia|exists 2; lia|exists 3; lia].
- split; [exists 2%nat; reflexivity|]. split; [reflexivity|]. split; [|intros H; discriminate H]. repeat constructor; cbn; lia.
- reflexivity.
- exact I.
- exact I.
- intros i Hi. assert (Q : i = 0 \/ i = 1 \/ i = 2 \/ i = 3) by lia. destruct Q as [->|[->|[->| ->]]]; cbv; split; congruence.
Qed.

(** For objects that are larger than the numbers but not larger than 8 bytes, such as struct { float x, y; }, the scale of the indexes is
lost: numbers of other objects are read, as if the indexes counted numbers. *)
Theorem C73_tie_small_refuted :
forall (A : Type) (zero : A) b n c w k st S p idx data (m : memory A),
  match b with SseOrScalar => In n [1; 2; 4; 8]%nat | AvxVectors => In n [4; 8; 16]%nat end -> (2 <= c <= 8)%nat ->
  is_simd st = true -> expression k st n w S p idx -> fixed_way p -> w < sizeof S <= 8 ->
  let at_ := fun e => data + offset S p 0 + w * znth 0 idx e in
  consecutive_mapped n (match b with SseOrScalar => members_read n c | AvxVectors => avx_members_read n c Interleave.AnyIndex end) w at_ m ->
  exists vs, tie_assign zero b n c w k st S data idx p m = Some vs /\ consecutive_read n c w at_ m vs.
Proof. exact TieMain.C73_tie_small_refuted_main. Qed.
Print Assumptions C73_tie_small_refuted.

Example C73_tie_small_refuted_ex :
tie_assign 0 SseOrScalar 4 2 4 IxInt InVector point2 1000 [3; 0; 1; 2] [Member 0] (fun a => Some (a - 1000)) = Some [[12; 0; 4; 8]; [16; 4; 8; 12]] /\
map (place point2 [Member 0] [3; 0; 1; 2]) [0; 1; 2; 3] = [24; 0; 8; 16].
Proof.
split; vm_compute; reflexivity.
Qed.
