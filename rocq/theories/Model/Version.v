(** Version numbers of headers and library (Vc/version.h, src/const.cpp). *)
From Coq Require Import ZArith Bool.
From Verif.Spec Require Import VersionSpec.
Local Open Scope Z_scope.

(** version.h:57 Vc_VERSION_CHECK.  The shifts are exact as long as the results fit an int. *)
Definition version_check (major minor patch : Z) : Z :=
  Z.lor (Z.lor (Z.shiftl major 16) (Z.shiftl minor 8)) (Z.shiftl patch 1).
(** version.h:46 Vc_VERSION_NUMBER: the lowest bit is set in development versions ("1.4.4-dev", version.h:40) *)
Definition version_number (v : version) : Z :=
  let c := version_check (v_major v) (v_minor v) (v_patch v) in if v_dev v then c + 1 else c.
Definition this_version : version := {| v_major := 1; v_minor := 4; v_patch := 4; v_dev := true |}.
Definition this_number : Z := 66569 (* 0x010409 *).
(** version.h:63, 65 *)
Definition is_version_2 (number : Z) : bool := version_check 1 70 0 <=? number.
Definition is_version_1 (number : Z) : bool := number <? version_check 1 70 0.
(** const.cpp:254-261 checkLibraryAbi, called by version.h:113-118 before main() in every translation unit: true if the program
    is aborted.  [library_abi] and [library_number] are those of the headers libVc was compiled with (const.cpp:250-252). *)
Definition check_library_abi (library_abi library_number abi number : Z) : bool :=
  negb (library_abi =? abi) || (library_number <? number).
