(** C09, continued: operands of any JSON type, also with repeated elements. *)
From Verif Require Import Base GoVal Policy SpecPolicy SpecEncode SpecGeneral RepeatFacts.
From Verif Require Import GoVal.
Local Open Scope nat_scope.
Local Open Scope string_scope.

(** ** C09 Conflicting value/default operands are rejected *)

(** Exactly when they are: operands are taken for equal if they have the same number of
    elements and all elements of the superior's are among the subordinate's. *)
Theorem C09_exact : forall o a b, eq_op o -> a <> VNil -> b <> VNil -> proper a -> proper b ->
  (merge_op o a b = Ok a /\ List.length (elements a) = List.length (elements b) /\ within (elements a) (elements b)) \/
  (merge_op o a b = Err /\ ~ (List.length (elements a) = List.length (elements b) /\ within (elements a) (elements b))).
Proof. exact any_exact. Qed.
Print Assumptions C09_exact.
Theorem C09_null : forall b, (merge_op OValue VNil b = if is_nil b then Ok VNil else Err) /\ (merge_op OValue b VNil = if is_nil b then Ok VNil else Err) /\
  merge_op ODefault VNil b = Ok b /\ merge_op ODefault b VNil = Ok b.
Proof. exact any_null. Qed.
Print Assumptions C09_null.

(** So a conflict is noticed whichever of the two is the superior, or at least in one of the
    two cases. *)
Theorem C09_both_ways : forall o a b x y, eq_op o -> a <> VNil -> b <> VNil -> proper a -> proper b ->
  merge_op o a b = Ok x -> merge_op o b a = Ok y -> same_content a b /\ x = a /\ y = b.
Proof. exact any_both_ways. Qed.
Print Assumptions C09_both_ways.

Example C09_repeat_case : let l := map VStr in let a := VSlice TStr false (l ["a"; "a"]) in let b := VSlice TStr false (l ["a"; "b"]) in
  let c := VSlice TStr false (l ["b"; "a"]) in
  proper a /\ proper b /\ proper c /\ merge_op OValue a b = Ok a /\ merge_op OValue b a = Err /\ merge_op OValue b c = Ok b /\ merge_op OValue c b = Ok c.
Proof. exact repeat_case. Qed.
