(** The unit tests of the repository for the policy operators and the policy verifiers:
    policyoperators_test.go, policyverifiers_test.go. These are tests of the model, not
    proofs: tests the code passes are run on the model. Generated from the tables in the test
    files. Test cases with values of types that are not in the model (struct{}, []int) and
    tests of verifiers that are not registered (and not modelled) are left out. *)
From Verif Require Import Base GoVal Policy.
Local Open Scope string_scope.

(** The comparison of the tests: SliceEqual, internal/utils/slices.go. *)
Definition gives (expected : gval) (err : bool) (r : res gval) : bool :=
  match r with
  | Err => err
  | Ok v => (negb err && match slice_equal expected v with Ok b => b | _ => false end)%bool
  | Panic => false
  end.
(** a, b, expected, errExpected *)
Definition merges (o : op) (t : gval * gval * gval * bool) : bool :=
  let '(a, b, x, e) := t in gives x e (merge_op o a b).
(** essential, value, valueSet, policyValue, expected, errExpected *)
Definition applies (o : op) (t : bool * gval * bool * gval * gval * bool) : bool :=
  let '(es, v, s, p, x, e) := t in gives x e ('(r, _) <- apply_op o v s p es ;; Ok r).
(** policy, errExpected *)
Definition verifies (f : verifier) (t : entry * bool) : bool :=
  let '(p, e) := t in match f p with Ok _ => negb e | Err => e | Panic => false end.

(** TestPolicyOperatorAddMerge: policyoperators_test.go:9-194 *)
Example TestPolicyOperatorAddMerge : forallb (merges OAdd)
  [ (VNil, VNil, VNil, false)
  ; (VSlice TStr false [], VSlice TStr false [], VSlice TStr false [], false)
  ; (VStr "value", VNil, VStr "value", false)
  ; (VStr "value", VSlice TStr false [], VStr "value", false)
  ; (VStr "value", VStr "other", VSlice TStr false [VStr "value"; VStr "other"], false)
  ; (VStr "value", VSlice TStr false [VStr "other"; VStr "values"], VSlice TStr false [VStr "value"; VStr "other"; VStr "values"], false)
  ; (VSlice TStr false [VStr "value"], VSlice TStr false [VStr "other"; VStr "values"], VSlice TStr false [VStr "value"; VStr "other"; VStr "values"], false)
  ; (VSlice TStr false [VStr "value"; VStr "values"], VSlice TStr false [VStr "other"; VStr "values"; VStr "value"], VSlice TStr false [VStr "value"; VStr "values"; VStr "other"], false)
  ; (VNil, VSlice TStr false [VStr "other"; VStr "values"; VStr "value"], VSlice TStr false [VStr "other"; VStr "values"; VStr "value"], false)
  ; (VSlice TStr false [VStr "other"; VStr "values"; VStr "value"], VNil, VSlice TStr false [VStr "other"; VStr "values"; VStr "value"], false)
  ; (VSlice TStr false [], VSlice TStr false [VStr "other"; VStr "values"; VStr "value"], VSlice TStr false [VStr "other"; VStr "values"; VStr "value"], false)
  ; (VSlice TStr false [VStr "other"; VStr "values"; VStr "value"], VSlice TStr false [], VSlice TStr false [VStr "other"; VStr "values"; VStr "value"], false) ] = true.
Proof. vm_compute. reflexivity. Qed.

(** TestPolicyOperatorAddApply: policyoperators_test.go:196-390 *)
Example TestPolicyOperatorAddApply : forallb (applies OAdd)
  [ (false, VNil, false, VNil, VNil, false)
  ; (false, VNil, false, VStr "value", VStr "value", false)
  ; (false, VNil, true, VStr "value", VStr "value", false)
  ; (false, VNil, false, VSlice TStr false [VStr "value"; VStr "other"], VSlice TStr false [VStr "value"; VStr "other"], false)
  ; (false, VNil, true, VSlice TStr false [VStr "value"; VStr "other"], VSlice TStr false [VStr "value"; VStr "other"], false)
  ; (false, VStr "value", true, VStr "other", VSlice TStr false [VStr "value"; VStr "other"], false)
  ; (false, VStr "value", true, VSlice TStr false [VStr "additional"; VStr "other"], VSlice TStr false [VStr "value"; VStr "additional"; VStr "other"], false)
  ; (false, VStr "value", true, VStr "value", VStr "value", false)
  ; (false, VStr "value", true, VSlice TStr false [VStr "value"; VStr "other"], VSlice TStr false [VStr "value"; VStr "other"], false)
  ; (false, VSlice TStr false [], true, VStr "value", VSlice TStr false [VStr "value"], false)
  ; (false, VSlice TStr false [], true, VSlice TStr false [VStr "value"; VStr "other"], VSlice TStr false [VStr "value"; VStr "other"], false)
  ; (false, VSlice TStr false [VStr "value"], true, VStr "add", VSlice TStr false [VStr "value"; VStr "add"], false)
  ; (false, VSlice TStr false [VStr "value"; VStr "more"], true, VSlice TStr false [VStr "value"; VStr "other"], VSlice TStr false [VStr "value"; VStr "more"; VStr "other"], false) ] = true.
Proof. vm_compute. reflexivity. Qed.

(** TestPolicyOperatorSubsetOfMerge: policyoperators_test.go:392-512 *)
Example TestPolicyOperatorSubsetOfMerge : forallb (merges OSubsetOf)
  [ (VNil, VNil, VNil, false)
  ; (VSlice TStr false [], VSlice TStr false [], VSlice TStr false [], false)
  ; (VNil, VSlice TStr false [VStr "a"; VStr "b"], VSlice TStr false [VStr "a"; VStr "b"], false)
  ; (VSlice TStr false [], VSlice TStr false [VStr "a"; VStr "b"], VSlice TStr false [], false)
  ; (VSlice TStr false [VStr "a"; VStr "b"], VSlice TStr false [VStr "a"; VStr "b"], VSlice TStr false [VStr "a"; VStr "b"], false)
  ; (VSlice TStr false [VStr "a"; VStr "b"; VStr "c"], VSlice TStr false [VStr "b"; VStr "c"; VStr "d"], VSlice TStr false [VStr "b"; VStr "c"], false)
  ; (VSlice TStr false [VStr "a"; VStr "b"], VSlice TStr false [VStr "c"; VStr "d"], VSlice TStr false [], false) ] = true.
Proof. vm_compute. reflexivity. Qed.

(** TestPolicyOperatorSubsetOfApply: policyoperators_test.go:514-712 *)
Example TestPolicyOperatorSubsetOfApply : forallb (applies OSubsetOf)
  [ (false, VNil, false, VNil, VNil, false)
  ; (true, VNil, false, VNil, VNil, false)
  ; (false, VNil, false, VSlice TStr false [VStr "a"; VStr "b"], VNil, false)
  ; (true, VNil, false, VSlice TStr false [VStr "a"; VStr "b"], VNil, true)
  ; (false, VSlice TStr false [VStr "a"; VStr "b"], true, VNil, VSlice TStr false [VStr "a"; VStr "b"], false)
  ; (true, VSlice TStr false [VStr "a"; VStr "b"], true, VNil, VSlice TStr false [VStr "a"; VStr "b"], false)
  ; (false, VSlice TStr false [VStr "a"; VStr "b"], true, VSlice TStr false [VStr "a"; VStr "b"], VSlice TStr false [VStr "a"; VStr "b"], false)
  ; (false, VSlice TStr false [VStr "a"; VStr "b"], true, VSlice TStr false [VStr "a"; VStr "b"; VStr "c"], VSlice TStr false [VStr "a"; VStr "b"], false)
  ; (false, VSlice TStr false [VStr "a"; VStr "c"; VStr "d"], true, VSlice TStr false [VStr "a"; VStr "b"; VStr "c"], VSlice TStr false [VStr "a"; VStr "c"], false)
  ; (false, VSlice TStr false [VStr "a"; VStr "b"], true, VSlice TStr false [VStr "c"; VStr "d"], VSlice TStr false [], false)
  ; (true, VSlice TStr false [VStr "a"; VStr "b"], true, VSlice TStr false [VStr "c"; VStr "d"], VSlice TStr false [], false) ] = true.
Proof. vm_compute. reflexivity. Qed.

(** TestPolicyOperatorOneOfMerge: policyoperators_test.go:714-881 *)
Example TestPolicyOperatorOneOfMerge : forallb (merges OOneOf)
  [ (VNil, VNil, VNil, false)
  ; (VSlice TStr false [VStr "a"; VStr "b"], VNil, VSlice TStr false [VStr "a"; VStr "b"], false)
  ; (VNil, VSlice TStr false [VStr "a"; VStr "b"], VSlice TStr false [VStr "a"; VStr "b"], false)
  ; (VSlice TStr false [], VSlice TStr false [], VSlice TStr false [], false)
  ; (VSlice TStr false [VStr "a"; VStr "b"], VSlice TStr false [], VSlice TStr false [], false)
  ; (VSlice TStr false [VStr "a"; VStr "b"], VSlice TStr false [VStr "c"; VStr "d"], VSlice TStr false [], false)
  ; (VSlice TStr false [VStr "a"; VStr "b"], VSlice TStr false [VStr "a"; VStr "b"], VSlice TStr false [VStr "a"; VStr "b"], false)
  ; (VSlice TStr false [VStr "a"; VStr "b"; VStr "c"], VSlice TStr false [VStr "b"; VStr "c"; VStr "d"], VSlice TStr false [VStr "b"; VStr "c"], false)
  ; (VSlice TStr false [VStr "a"; VStr "b"; VStr "c"], VSlice TStr false [VStr "b"; VStr "c"], VSlice TStr false [VStr "b"; VStr "c"], false)
  ; (VSlice TStr false [VStr "a"; VStr "b"; VStr "c"], VSlice TStr false [VStr "b"; VStr "d"], VSlice TStr false [VStr "b"], false) ] = true.
Proof. vm_compute. reflexivity. Qed.

(** TestPolicyOperatorOneOfApply: policyoperators_test.go:883-1021 *)
Example TestPolicyOperatorOneOfApply : forallb (applies OOneOf)
  [ (false, VNil, false, VNil, VNil, false)
  ; (true, VNil, false, VNil, VNil, false)
  ; (false, VStr "value", true, VNil, VStr "value", false)
  ; (true, VStr "value", true, VNil, VStr "value", false)
  ; (false, VNil, false, VSlice TStr false [VStr "a"; VStr "b"], VNil, false)
  ; (true, VNil, false, VSlice TStr false [VStr "a"; VStr "b"], VNil, true)
  ; (false, VStr "value", true, VSlice TStr false [VStr "one"; VStr "of"; VStr "value"], VStr "value", false)
  ; (false, VStr "other", true, VSlice TStr false [VStr "one"; VStr "of"; VStr "value"], VNil, true)
  ; (false, VSlice TStr false [VStr "one"; VStr "of"; VStr "value"], true, VSlice TStr false [VStr "one"; VStr "of"; VStr "value"], VNil, true) ] = true.
Proof. vm_compute. reflexivity. Qed.

(** TestPolicyOperatorSupersetOfMerge: policyoperators_test.go:1023-1170 *)
Example TestPolicyOperatorSupersetOfMerge : forallb (merges OSupersetOf)
  [ (VNil, VNil, VNil, false)
  ; (VNil, VSlice TStr false [VStr "a"; VStr "b"], VSlice TStr false [VStr "a"; VStr "b"], false)
  ; (VSlice TStr false [VStr "a"; VStr "b"], VNil, VSlice TStr false [VStr "a"; VStr "b"], false)
  ; (VSlice TStr false [], VSlice TStr false [VStr "a"; VStr "b"], VSlice TStr false [VStr "a"; VStr "b"], false)
  ; (VSlice TStr false [VStr "a"; VStr "b"], VSlice TStr false [], VSlice TStr false [VStr "a"; VStr "b"], false)
  ; (VSlice TStr false [VStr "a"; VStr "b"], VSlice TStr false [VStr "a"; VStr "b"], VSlice TStr false [VStr "a"; VStr "b"], false)
  ; (VSlice TStr false [VStr "a"; VStr "b"], VSlice TStr false [VStr "c"; VStr "d"], VSlice TStr false [VStr "a"; VStr "b"; VStr "c"; VStr "d"], false)
  ; (VSlice TStr false [VStr "a"; VStr "b"], VSlice TStr false [VStr "b"; VStr "c"], VSlice TStr false [VStr "a"; VStr "b"; VStr "c"], false) ] = true.
Proof. vm_compute. reflexivity. Qed.

(** TestPolicyOperatorSupersetOfApply: policyoperators_test.go:1172-1352 *)
Example TestPolicyOperatorSupersetOfApply : forallb (applies OSupersetOf)
  [ (false, VNil, false, VNil, VNil, false)
  ; (true, VNil, false, VNil, VNil, false)
  ; (false, VSlice TStr false [VStr "a"; VStr "b"], true, VNil, VSlice TStr false [VStr "a"; VStr "b"], false)
  ; (false, VSlice TStr false [VStr "a"; VStr "b"], true, VNil, VSlice TStr false [VStr "a"; VStr "b"], false)
  ; (false, VSlice TStr false [VStr "a"; VStr "b"], true, VSlice TStr false [], VSlice TStr false [VStr "a"; VStr "b"], false)
  ; (false, VNil, false, VSlice TStr false [VStr "a"], VNil, false)
  ; (true, VNil, false, VSlice TStr false [VStr "a"], VNil, true)
  ; (false, VSlice TStr false [], true, VSlice TStr false [VStr "a"], VNil, true)
  ; (true, VSlice TStr false [], true, VSlice TStr false [VStr "a"], VNil, true)
  ; (false, VSlice TStr false [VStr "a"; VStr "b"], true, VSlice TStr false [VStr "a"; VStr "b"], VSlice TStr false [VStr "a"; VStr "b"], false)
  ; (false, VSlice TStr false [VStr "a"; VStr "b"], true, VSlice TStr false [VStr "a"], VSlice TStr false [VStr "a"; VStr "b"], false)
  ; (false, VSlice TStr false [VStr "a"; VStr "b"], true, VSlice TStr false [VStr "a"; VStr "c"], VNil, true) ] = true.
Proof. vm_compute. reflexivity. Qed.

(** TestPolicyOperatorValueMerge: policyoperators_test.go:1354-1470 *)
Example TestPolicyOperatorValueMerge : forallb (merges OValue)
  [ (VNil, VNil, VNil, false)
  ; (VNil, VStr "value", VNil, true)
  ; (VStr "value", VNil, VNil, true)
  ; (VStr "value", VStr "value", VStr "value", false)
  ; (VStr "value", VStr "value2", VNil, true)
  ; (VSlice TStr false [VStr "a"; VStr "b"], VSlice TStr false [VStr "a"; VStr "b"], VSlice TStr false [VStr "a"; VStr "b"], false)
  ; (VSlice TStr false [VStr "a"; VStr "b"], VSlice TStr false [VStr "b"; VStr "a"], VSlice TStr false [VStr "a"; VStr "b"], false)
  ; (VSlice TStr false [VStr "a"; VStr "b"; VStr "c"], VSlice TStr false [VStr "b"; VStr "a"], VNil, true) ] = true.
Proof. vm_compute. reflexivity. Qed.

(** TestPolicyOperatorValueApply: policyoperators_test.go:1472-1546 *)
Example TestPolicyOperatorValueApply : forallb (applies OValue)
  [ (false, VNil, false, VNil, VNil, false)
  ; (false, VStr "value", true, VNil, VNil, false)
  ; (false, VStr "value", true, VStr "overwrite", VStr "overwrite", false)
  ; (false, VStr "value", true, VSlice TStr false [VStr "overwrite"; VStr "with"; VStr "values"], VSlice TStr false [VStr "overwrite"; VStr "with"; VStr "values"], false) ] = true.
Proof. vm_compute. reflexivity. Qed.

(** TestPolicyOperatorDefaultMerge: policyoperators_test.go:1548-1664 *)
Example TestPolicyOperatorDefaultMerge : forallb (merges ODefault)
  [ (VNil, VNil, VNil, false)
  ; (VNil, VStr "value", VStr "value", false)
  ; (VStr "value", VNil, VStr "value", false)
  ; (VStr "value", VStr "value", VStr "value", false)
  ; (VStr "value", VStr "value2", VNil, true)
  ; (VSlice TStr false [VStr "a"; VStr "b"], VSlice TStr false [VStr "a"; VStr "b"], VSlice TStr false [VStr "a"; VStr "b"], false)
  ; (VSlice TStr false [VStr "a"; VStr "b"], VSlice TStr false [VStr "b"; VStr "a"], VSlice TStr false [VStr "a"; VStr "b"], false)
  ; (VSlice TStr false [VStr "a"; VStr "b"; VStr "c"], VSlice TStr false [VStr "b"; VStr "a"], VNil, true) ] = true.
Proof. vm_compute. reflexivity. Qed.

(** TestPolicyOperatorDefaultApply: policyoperators_test.go:1666-1784 *)
Example TestPolicyOperatorDefaultApply : forallb (applies ODefault)
  [ (false, VNil, false, VNil, VNil, false)
  ; (false, VStr "value", true, VNil, VStr "value", false)
  ; (false, VNil, false, VStr "value", VStr "value", false)
  ; (false, VStr "", true, VStr "value", VStr "", false)
  ; (false, VStr "", false, VStr "value", VStr "value", false)
  ; (false, VStr "value", true, VStr "default", VStr "value", false)
  ; (false, VStr "value", true, VSlice TStr false [VStr "default"; VStr "with"; VStr "values"], VStr "value", false) ] = true.
Proof. vm_compute. reflexivity. Qed.

(** TestPolicyOperatorEssentialMerge: policyoperators_test.go:1786-1887 *)
Example TestPolicyOperatorEssentialMerge : forallb (merges OEssential)
  [ (VNil, VNil, VBool false, false)
  ; (VNil, VBool false, VBool false, false)
  ; (VBool false, VNil, VBool false, false)
  ; (VNil, VBool true, VBool true, false)
  ; (VBool true, VNil, VBool true, false)
  ; (VBool false, VBool true, VBool true, false)
  ; (VBool true, VBool false, VBool true, false)
  ; (VBool true, VBool true, VBool true, false)
  ; (VBool false, VBool false, VBool false, false) ] = true.
Proof. vm_compute. reflexivity. Qed.

(** TestPolicyOperatorEssentialApply: policyoperators_test.go:1889-2001 *)
Example TestPolicyOperatorEssentialApply : forallb (applies OEssential)
  [ (false, VNil, false, VNil, VNil, false)
  ; (false, VNil, false, VBool false, VNil, false)
  ; (false, VNil, false, VBool true, VNil, true)
  ; (false, VStr "", true, VBool true, VNil, true)
  ; (false, VStr "value", true, VBool true, VStr "value", false)
  ; (false, VStr "", true, VBool false, VStr "", false)
  ; (false, VStr "value", true, VBool false, VStr "value", false) ] = true.
Proof. vm_compute. reflexivity. Qed.

(** TestPolicyVerifierSubsetSupersetOneOf: policyverifiers_test.go:7-130 *)
Example TestPolicyVerifierSubsetSupersetOneOf : forallb (verifies verify_subset_superset_oneof)
  [ ([], false)
  ; ([], false)
  ; ([(op_name OSubsetOf, VSlice TStr false [VStr "one"; VStr "two"])], false)
  ; ([(op_name OSupersetOf, VSlice TStr false [VStr "one"; VStr "two"])], false)
  ; ([(op_name OOneOf, VSlice TStr false [VStr "one"; VStr "two"])], false)
  ; ([(op_name OSubsetOf, VSlice TStr false [VStr "one"; VStr "two"]); (op_name OSupersetOf, VSlice TStr false [VStr "one"])], false)
  ; ([(op_name OSubsetOf, VSlice TStr false [VStr "one"; VStr "two"]); (op_name OSupersetOf, VSlice TStr false [VStr "one"]); (op_name OOneOf, VSlice TStr false [VStr "one"; VStr "two"])], true)
  ; ([(op_name OSubsetOf, VSlice TStr false [VStr "one"; VStr "two"]); (op_name OOneOf, VSlice TStr false [VStr "one"; VStr "two"])], true)
  ; ([(op_name OSupersetOf, VSlice TStr false [VStr "one"]); (op_name OOneOf, VSlice TStr false [VStr "one"; VStr "two"])], true) ] = true.
Proof. vm_compute. reflexivity. Qed.

(** TestPolicyVerifierSubsetSupersetOf: policyverifiers_test.go:132-238 *)
Example TestPolicyVerifierSubsetSupersetOf : forallb (verifies verify_subset_superset)
  [ ([], false)
  ; ([], false)
  ; ([(op_name OSubsetOf, VSlice TStr false [VStr "one"; VStr "of"; VStr "three"])], false)
  ; ([(op_name OSupersetOf, VSlice TStr false [VStr "one"; VStr "two"])], false)
  ; ([(op_name OSubsetOf, VSlice TStr false [VStr "one"; VStr "two"; VStr "three"]); (op_name OSupersetOf, VSlice TStr false [VStr "one"; VStr "two"])], false)
  ; ([(op_name OSubsetOf, VSlice TStr false [VStr "all"; VStr "are"; VStr "different"]); (op_name OSupersetOf, VSlice TStr false [VStr "one"; VStr "two"])], true)
  ; ([(op_name OSubsetOf, VSlice TStr false [VStr "one"; VStr "of"; VStr "three"]); (op_name OSupersetOf, VSlice TStr false [VStr "one"; VStr "two"])], true) ] = true.
Proof. vm_compute. reflexivity. Qed.

(** TestPolicyVerifyAddInSubset: policyverifiers_test.go:240-364 *)
Example TestPolicyVerifyAddInSubset : forallb (verifies verify_add_in_subset)
  [ ([], false)
  ; ([], false)
  ; ([(op_name OAdd, VStr "value")], false)
  ; ([(op_name OSubsetOf, VSlice TStr false [VStr "value"; VStr "other"])], false)
  ; ([(op_name OAdd, VStr "value"); (op_name OSubsetOf, VSlice TStr false [VStr "value"; VStr "other"])], false)
  ; ([(op_name OAdd, VSlice TStr false [VStr "value"; VStr "other"]); (op_name OSubsetOf, VSlice TStr false [VStr "value"; VStr "more"; VStr "other"])], false)
  ; ([(op_name OAdd, VSlice TStr false [VStr "value"; VStr "other"]); (op_name OSubsetOf, VSlice TStr false [VStr "value"; VStr "other"])], false)
  ; ([(op_name OAdd, VSlice TStr false [VStr "value"; VStr "different"]); (op_name OSubsetOf, VSlice TStr false [VStr "value"; VStr "other"])], true)
  ; ([(op_name OAdd, VStr "different"); (op_name OSubsetOf, VSlice TStr false [VStr "value"; VStr "other"])], true) ] = true.
Proof. vm_compute. reflexivity. Qed.

(** TestPolicyVerifyAddInOneOf: policyverifiers_test.go:366-484 *)
Example TestPolicyVerifyAddInOneOf : forallb (verifies verify_add_in_oneof)
  [ ([], false)
  ; ([], false)
  ; ([(op_name OAdd, VStr "value")], false)
  ; ([(op_name OOneOf, VSlice TStr false [VStr "value"; VStr "other"])], false)
  ; ([(op_name OAdd, VStr "value"); (op_name OOneOf, VSlice TStr false [VStr "value"; VStr "other"])], false)
  ; ([(op_name OAdd, VSlice TStr false [VStr "value"; VStr "other"]); (op_name OOneOf, VSlice TStr false [VStr "value"; VStr "more"; VStr "other"])], true)
  ; ([(op_name OAdd, VSlice TStr false [VStr "value"]); (op_name OOneOf, VSlice TStr false [VStr "value"])], false)
  ; ([(op_name OAdd, VStr "value"); (op_name OOneOf, VSlice TStr false [VStr "value"])], false)
  ; ([(op_name OAdd, VStr "different"); (op_name OOneOf, VSlice TStr false [VStr "value"; VStr "other"])], true) ] = true.
Proof. vm_compute. reflexivity. Qed.

(** TestPolicyVerifierPolicyVerifyOneOfStillHasValues: policyverifiers_test.go:857-919 *)
Example TestPolicyVerifierPolicyVerifyOneOfStillHasValues : forallb (verifies verify_oneof_has_values)
  [ ([], false)
  ; ([], false)
  ; ([(op_name OOneOf, VNil)], true)
  ; ([(op_name OOneOf, VSlice TStr false [])], true)
  ; ([(op_name OOneOf, VSlice TStr false [VStr "one"; VStr "two"])], false) ] = true.
Proof. vm_compute. reflexivity. Qed.
