(** The hashers that the two packages hand out. *)

From Coq Require Import String List.
From Verif Require Import Model_Build Gen_Build Model_Iface Gen_Methods.
Local Open Scope string_scope.

(** The type of the value that New of package sha1cd returns (/repo/sha1cd.go lines 122-126: *digest), and of that of package
    cgo (/repo/cgo/sha1.go lines 17-21: *digest; /repo/cgo/fallback_no_cgo.go lines 21-23: that of package sha1cd). *)
Definition hasher (e : tags) : list signature := ptr_methods e pkg_sha1cd meths_sha1cd "digest".
Definition cgo_hasher (e : tags) : list signature := if e "cgo" then ptr_methods e pkg_cgo meths_cgo "digest" else hasher e.
