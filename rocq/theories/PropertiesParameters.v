(** Theorems C124. *)
From Coq Require Import QArith.
From Verif Require Import Base GoVal Policy Schema Metadata SpecPolicy SpecMetadata Chain Resolver SpecResolver SpecChain WitnessResolver
  FloatTime Json SpecJson TrustMark Leaf Config SpecDecode Statement SpecStatement SpecParameters ParameterFacts WitnessParameters.
From Verif Require Import GoVal.
Local Open Scope nat_scope.
Local Open Scope string_scope.

(** ** C124 Standard metadata parameters are understood and subject to policies *)

(** Missing: the parameters listed in missing_parameters (C124_refuted). *)
Theorem C124_understood_partial : forall j m t name k x y v, plain j -> dec_metadata j = Ok m -> In t entity_type_names ->
  In (name, k) (standard_parameters t) -> ~ In name (missing_parameters t) ->
  claim t j = Some x -> claim name x = Some y -> of_kind k y v ->
  exists em w, typed t m = Some em /\ em_tag name em = Some w /\ of_kind k y w.
Proof. exact parameter_understood. Qed.
Print Assumptions C124_understood_partial.

Example C124_case : plain op_doc /\ exists m x, dec_metadata op_doc = Ok m /\ claim "openid_provider" op_doc = Some x /\
  In ("scopes_supported", Texts) (standard_parameters "openid_provider") /\ ~ In "scopes_supported" (missing_parameters "openid_provider") /\
  claim "scopes_supported" x = Some (JArr (map JStr ["openid"; "email"])) /\
  exists em, typed "openid_provider" m = Some em /\ em_tag "scopes_supported" em = Some (VSlice TStr false [VStr "openid"; VStr "email"]).
Proof. exact c124_case. Qed.

(** For the others policies have no effect at all. *)
Theorem C124_refuted : forall j m t name em, plain j -> dec_metadata j = Ok m -> In t entity_type_names -> In name (missing_parameters t) ->
  typed t m = Some em -> em_tag name em = None /\ forall e p, apply_policy em ((name, e) :: p) = apply_policy em p.
Proof. exact parameter_ignored. Qed.
Print Assumptions C124_refuted.

(** A provider that supports only unsigned ID tokens passes a policy that allows RS256 only. *)
Theorem C124_refuted_none : exists w tas types start e s r p m em,
  returned w tas types start (e :: s :: r) /\ st_iss s = TA /\ option_map mp_op (st_policy s) = Some (Some p) /\
  lookup "id_token_signing_alg_values_supported" p = Some [("subset_of", VSlice TAny false [VStr "RS256"]); ("essential", VBool true)] /\
  chain_metadata (e :: s :: r) = Ok (Some m) /\ typed "openid_provider" m = Some em /\
  lookup "id_token_signing_alg_values_supported" (extra_value em) = Some (VSlice TAny false [VStr "none"]).
Proof. exact c124_witness. Qed.
Print Assumptions C124_refuted_none.
