(** C57: three builds (tests, not proofs). *)

From Coq Require Import String List.
From Verif Require Import Model_Build Gen_Build Gen_Methods Model_Iface Model_Hasher Spec_Iface Properties_Iface.
Import ListNotations.
Local Open Scope string_scope.

Definition linux_amd64 : tags := fun t => mem_str t ["linux"; "amd64"; "gc"; "cgo"; "unix"].
Definition linux_arm_nocgo : tags := fun t => mem_str t ["linux"; "arm"; "gc"; "unix"].
Example C57_example : (List.length (hasher linux_amd64), List.length (cgo_hasher linux_amd64), List.length (cgo_hasher linux_arm_nocgo)) = (9, 7, 9) /\
  In ("Sum", ["[]byte"], ["[]byte"]) (cgo_hasher linux_amd64) /\ exported "sum" = false /\ exported "Sum" = true.
Proof. split; [vm_compute; reflexivity|]. split; [vm_compute; auto 10|]. split; reflexivity. Qed.
(** The methods of files outside the build do not count. *)
Example C57_test_excluded : Model_Iface.methods linux_arm_nocgo Gen_Build.pkg_cgo Gen_Methods.meths_cgo = [] /\
  List.length (Model_Iface.methods linux_amd64 Gen_Build.pkg_cgo Gen_Methods.meths_cgo) = 7.
Proof. split; vm_compute; reflexivity. Qed.
