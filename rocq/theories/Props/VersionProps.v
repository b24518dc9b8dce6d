(** version numbers and the check of the library *)
From Coq Require Import ZArith Bool Lia.
From Verif.Spec Require Import VersionSpec.
From Verif.Model Require Import Version.
Local Open Scope Z_scope.
From Verif.Proof Require VersionMain.

(** Comparing version numbers compares versions: of two versions whose minor number is below 256 and whose patch number is below 128, the
older one has the smaller number, and a development version lies between its release and the next.  In particular Vc_VERSION_NUMBER
>= Vc_VERSION_CHECK(major, minor, patch) holds exactly if this version is not older than major.minor.patch. *)
Theorem C86_order :
  (forall v u, fits v -> fits u -> (version_number v < version_number u <-> older v u)) /\
  this_number = version_number this_version /\
  forall major minor patch, let u := {| v_major := major; v_minor := minor; v_patch := patch; v_dev := false |} in
    fits u -> (this_number >= version_check major minor patch <-> ~ older this_version u).
Proof. exact VersionMain.C86_order_main. Qed.
Print Assumptions C86_order.

Example C86_order_ex :
  fits {| v_major := 1; v_minor := 4; v_patch := 4; v_dev := false |} /\ this_number > version_check 1 4 4 /\ this_number < version_check 1 4 5 /\
  is_version_1 this_number = true /\ is_version_2 this_number = false.
Proof.
  repeat split; cbn; lia.
Qed.

(** The limits are needed: the bits of larger numbers overlap, so that versions are taken for others and the order is lost. *)
Theorem C86_order_refuted :
  version_check 1 1 128 = version_check 1 1 0 /\ version_check 1 256 0 = version_check 1 0 0 /\
  exists v u, older v u /\ version_number u < version_number v.
Proof. exact VersionMain.C86_order_refuted_main. Qed.
Print Assumptions C86_order_refuted.

Example C86_order_refuted_ex :
  version_check 1 1 127 = 65536 + 256 + 254.
Proof.
  reflexivity.
Qed.

(** A program starts only if the library and all headers it was compiled with have the same binary interface and the library is not
older than any of these headers; otherwise it is aborted. *)
Theorem C86_library_check :
  forall library_abi library abi header, fits library -> fits header ->
    (check_library_abi library_abi (version_number library) abi (version_number header) = false <-> library_abi = abi /\ ~ older library header).
Proof. exact VersionMain.C86_library_check_main. Qed.
Print Assumptions C86_library_check.

Example C86_library_check_ex :
  let release := {| v_major := 1; v_minor := 4; v_patch := 4; v_dev := false |} in
  check_library_abi 5 (version_number release) 5 (version_number this_version) = true /\
  check_library_abi 5 (version_number this_version) 5 (version_number release) = false /\
  check_library_abi 5 (version_number this_version) 4 (version_number release) = true.
Proof.
  vm_compute. auto.
Qed.
