(** Applying a metadata policy to metadata it was already applied to. *)
From Verif Require Import Base GoVal Policy Schema Metadata SpecPolicy SpecMetadata SpecTwice TwiceFacts.
From Verif Require Import WitnessPolicy WitnessSingle WitnessTwice.
Local Open Scope string_scope.

(** ** C11 Policy application is idempotent *)

(** For whole metadata and any number of attributes, lists and single values.
    Missing: an attribute the document does not have, and that the policy demands, supplies by
    default and restricts (see [C11_fails_again]). *)
Theorem C11_again_partial : forall m p m1, apply_policy m p = Ok m1 -> plain m p ->
  (forall r v e, In (r, v) (em_fields m) -> mem (fr_name r) (em_set m) = false -> lookup (fr_tag r) p = Some e -> ~ demanding e) ->
  exists m2, apply_policy m1 p = Ok m2 /\ same_metadata m1 m2.
Proof. exact apply_again. Qed.
Print Assumptions C11_again_partial.

Example C11_again_case : exists m1, apply_policy rp_silent p_both = Ok m1 /\ plain rp_silent p_both /\
  em_tag AM m1 = Some (VStr "private_key_jwt") /\ em_tag "contacts" m1 = Some (VSlice TStr false [VStr "ops@ta"; VStr "sec@ta"]) /\
  (forall r v e, In (r, v) (em_fields rp_silent) -> mem (fr_name r) (em_set rp_silent) = false -> lookup (fr_tag r) p_both = Some e -> ~ demanding e).
Proof. exact twice_case. Qed.

(** There the second application always fails. *)
Theorem C11_fails_again : forall m p m1 r a e o pv, apply_policy m p = Ok m1 ->
  In (r, a) (em_fields m1) -> is_zero a = Ok false -> mem (fr_name r) (em_set m) = false ->
  lookup (fr_tag r) p = Some e -> demanding e ->
  In o ["one_of"; "subset_of"; "superset_of"] -> lookup o e = Some pv -> pv <> VNil ->
  forall m2, apply_policy m1 p <> Ok m2.
Proof. exact again_fails. Qed.
Print Assumptions C11_fails_again.

Example C11_fails_case : exists m1 r, apply_policy rp_silent twice = Ok m1 /\
  In (r, VSlice TStr false [VStr "a"]) (em_fields m1) /\ mem (fr_name r) (em_set rp_silent) = false /\
  exists e, lookup (fr_tag r) twice = Some e /\ demanding e.
Proof. exact fails_case. Qed.
