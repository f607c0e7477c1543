(** The verifiers for default that the library has but does not register
    (policyverifiers.go:243-245). *)
From Verif Require Import Base GoVal Policy.

(** policyVerifyDefaultInOneOf: policyverifiers.go:171-188 *)
Definition verify_default_in_oneof : verifier := fun p =>
  match get OOneOf p, get ODefault p with
  | Some oneof, Some d => if slice_contains d (slicify oneof) then Ok tt else Err
  | _, _ => Ok tt
  end.
(** policyVerifyDefaultInSubset: policyverifiers.go:127-144 *)
Definition verify_default_in_subset : verifier := verify_sub ODefault OSubsetOf.
(** policyVerifyDefaultSuperset: policyverifiers.go:190-207. ReflectIsSupersetOf asks whether
    the second value is a subset of the first. *)
Definition verify_default_superset : verifier := verify_sub OSupersetOf ODefault.
(** The three in the order in which their registration is commented out:
    policyverifiers.go:243-245 *)
Definition default_checks : list verifier := [verify_default_in_oneof; verify_default_in_subset; verify_default_superset].
