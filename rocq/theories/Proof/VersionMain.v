(** version numbers and the check of the library (proofs). *)
From Coq Require Import ZArith Bool Lia.
From Verif.Spec Require Import VersionSpec.
From Verif.Model Require Import Version.
Local Open Scope Z_scope.

Lemma lor_add a b k : 0 <= k -> 0 <= a -> 0 <= b < 2 ^ k -> Z.lor (a * 2 ^ k) b = a * 2 ^ k + b.
Proof.
  intros K A B. assert (L : Z.land (a * 2 ^ k) b = 0).
  { apply Z.bits_inj'. intros i Hi. rewrite Z.land_spec, Z.bits_0. destruct (Z.ltb_spec i k) as [H|H].
    - rewrite Z.mul_pow2_bits_low by lia. reflexivity.
    - replace (Z.testbit b i) with false; [apply andb_false_r|]. symmetry. destruct (Z.eq_dec b 0) as [->|NB]; [apply Z.bits_0|]. apply Z.bits_above_log2; [lia|]. apply Z.lt_le_trans with k; [|lia]. apply Z.log2_lt_pow2; lia. }
  rewrite <- Z.lxor_lor by exact L. symmetry. apply Z.add_nocarry_lxor. exact L.
Qed.
Lemma check_value major minor patch : 0 <= major -> 0 <= minor < 2 ^ 8 -> 0 <= patch < 2 ^ 7 -> version_check major minor patch = major * 2 ^ 16 + minor * 2 ^ 8 + patch * 2.
Proof.
  intros A B C. unfold version_check. rewrite !Z.shiftl_mul_pow2 by lia. change (2 ^ 1) with 2.
  replace (Z.lor (major * 2 ^ 16) (minor * 2 ^ 8)) with ((major * 2 ^ 8 + minor) * 2 ^ 8).
  - rewrite lor_add by (change (2 ^ 7) with 128 in *; change (2 ^ 8) with 256 in *; lia). change (2 ^ 16) with (2 ^ 8 * 2 ^ 8). ring.
  - rewrite lor_add by (change (2 ^ 16) with (256 * 256) in *; change (2 ^ 8) with 256 in *; lia). change (2 ^ 16) with (2 ^ 8 * 2 ^ 8). ring.
Qed.
Lemma number_older v u : fits v -> fits u -> version_number v < version_number u <-> older v u.
Proof.
  intros (A & B & C) (A' & B' & C'). unfold version_number, older. rewrite !check_value by lia. change (2 ^ 16) with 65536 in *. change (2 ^ 15) with 32768 in *. change (2 ^ 8) with 256 in *. change (2 ^ 7) with 128 in *.
  destruct (v_dev v), (v_dev u); intuition (try discriminate; lia).
Qed.

Lemma C86_order_main :
  (forall v u, fits v -> fits u -> (version_number v < version_number u <-> older v u)) /\
  this_number = version_number this_version /\
  forall major minor patch, let u := {| v_major := major; v_minor := minor; v_patch := patch; v_dev := false |} in
    fits u -> (this_number >= version_check major minor patch <-> ~ older this_version u).
Proof.
  split; [exact number_older|]. split; [reflexivity|]. intros major minor patch u Fu. assert (Ft : fits this_version) by (repeat split; cbn; lia).
  pose proof (number_older _ _ Ft Fu) as H. change (version_number u) with (version_check major minor patch) in H. change (version_number this_version) with this_number in H. rewrite <- H. lia.
Qed.

Lemma C86_order_refuted_main :
  version_check 1 1 128 = version_check 1 1 0 /\ version_check 1 256 0 = version_check 1 0 0 /\
  exists v u, older v u /\ version_number u < version_number v.
Proof.
  split; [reflexivity|]. split; [reflexivity|]. exists {| v_major := 1; v_minor := 1; v_patch := 1; v_dev := false |}, {| v_major := 1; v_minor := 1; v_patch := 128; v_dev := false |}. split; [right; cbn; lia|reflexivity].
Qed.

Lemma C86_library_check_main :
  forall library_abi library abi header, fits library -> fits header ->
    (check_library_abi library_abi (version_number library) abi (version_number header) = false <-> library_abi = abi /\ ~ older library header).
Proof.
  intros la l a h Fl Fh. unfold check_library_abi. rewrite orb_false_iff, negb_false_iff, Z.eqb_eq, Z.ltb_ge, <- (number_older l h Fl Fh). lia.
Qed.
