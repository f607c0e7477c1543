(** Which members written documents have: theorems (C131). *)
From Coq Require Import QArith.
From Verif Require Import Base GoVal Policy Schema Metadata SpecMetadata Chain Resolver SpecResolver FloatTime Json SpecJson TrustMark Refresher Leaf Config SpecConfig Jwt Statement SpecStatement
  Encode SpecEncode Respond SpecRespond SpecWritten WrittenFacts WitnessResolver WitnessStatement WitnessEncode WitnessRespond WitnessWritten.
From Verif Require Import GoVal.
Local Open Scope nat_scope.
Local Open Scope string_scope.

(** ** C131 Written documents state what is set, and nothing else *)

(** Metadata states attributes that have no value as empty text or null, for some attributes
    (subject types, for one, even of plain authorization servers, for which they do not exist). *)
Theorem C131_refuted : exists m, entity_ok op_schema m /\ em_tag "token_endpoint" m = Some (VStr "") /\ em_tag "subject_types_supported" m = Some (VSlice TStr true []) /\
  claim "token_endpoint" (enc_entity m) = Some (JStr "") /\ claim "subject_types_supported" (enc_entity m) = Some JNull.
Proof. exact c131_refuted. Qed.
Print Assumptions C131_refuted.

(** Exactly the attributes in [always_written] are; all others are left out if and only if they
    are empty, and are never null. *)
Theorem C131_entity_partial : forall sch req m r v, In (sch, req) always_written -> entity_ok sch m -> In (r, v) (em_fields m) -> fr_tag r <> "-" ->
  (claim (fr_tag r) (enc_entity m) = None <-> blank v /\ ~ In (fr_tag r) req) /\
  (claim (fr_tag r) (enc_entity m) = Some JNull <-> no_pointer v /\ In (fr_tag r) req).
Proof. exact written_entity. Qed.
Print Assumptions C131_entity_partial.

Example C131_case : entity_ok rp_schema rp_built /\ In (rp_schema, ["client_registration_types"]) always_written /\
  claim "client_name" (enc_entity rp_built) = Some (JStr "App") /\ claim "contacts" (enc_entity rp_built) = None /\ claim "require_auth_time" (enc_entity rp_built) = None /\
  claim "client_registration_types" (enc_entity rp_built) = Some JNull.
Proof. exact c131_case. Qed.

(** Metadata and policies state the entity types that are set. *)
Theorem C131_metadata : forall m t e, apart type_names (md_extra m) ->
  In (t, e) [("openid_provider", md_op m); ("openid_relying_party", md_rp m); ("oauth_authorization_server", md_as m); ("oauth_client", md_oc m); ("oauth_resource", md_pr m); ("federation_entity", md_fe m)] ->
  stated_when (e <> None) (claim t (enc_metadata m)).
Proof. exact written_metadata. Qed.
Print Assumptions C131_metadata.

Theorem C131_policies : forall p t q, apart type_names (mp_extra p) ->
  In (t, q) [("openid_provider", mp_op p); ("openid_relying_party", mp_rp p); ("oauth_authorization_server", mp_as p); ("oauth_client", mp_oc p); ("oauth_resource", mp_pr p); ("federation_entity", mp_fe p)] ->
  stated_when (q <> None /\ q <> Some []) (claim t (enc_policies p)).
Proof. exact written_policies. Qed.
Print Assumptions C131_policies.

(** Statements always state issuer, subject, times and keys (null if there are none), and the
    other claims if they are set. *)
Theorem C131_statement : forall kc p, apart claim_names (sp_extra p) -> let d := enc_statement kc p in let s := sp_claims p in
  claim "iss" d = Some (JStr (st_iss s)) /\ claim "sub" d = Some (JStr (st_sub s)) /\
  claim "iat" d = Some (JNum (encode_time (st_iat s))) /\ claim "exp" d = Some (JNum (encode_time (st_exp s))) /\
  claim "jwks" d = Some (match st_jwks s with Some k => kc_enc kc k | None => JNull end) /\
  claim "authority_hints" d = names_claim (st_hints s) /\ claim "crit" d = names_claim (st_crit s) /\ claim "metadata_policy_crit" d = names_claim (st_policy_crit s) /\
  stated_when (st_metadata s <> None) (claim "metadata" d) /\ stated_when (st_policy s <> None) (claim "metadata_policy" d) /\
  stated_when (st_constraints s <> None) (claim "constraints" d) /\ stated_when (st_marks s <> []) (claim "trust_marks" d) /\
  stated_when (st_mark_issuers s <> []) (claim "trust_mark_issuers" d) /\ stated_when (st_mark_owners s <> []) (claim "trust_mark_owners" d).
Proof. exact written_statement. Qed.
Print Assumptions C131_statement.

(** A path length of 0 is stated. *)
Theorem C131_constraints : forall c, let d := enc_constraints c in
  claim "max_path_length" d = option_map (fun z => JNum (inject_Z z)) (co_max_path c) /\ stated_when (co_naming c <> None) (claim "naming_constraints" d) /\
  claim "allowed_entity_types" d = match co_types c with Some l => names_claim l | None => None end.
Proof. exact written_constraints. Qed.
Print Assumptions C131_constraints.

Theorem C131_naming : forall n, let d := enc_naming n in
  claim "permitted" d = match nc_permitted n with Some l => names_claim l | None => None end /\ claim "excluded" d = names_claim (nc_excluded n).
Proof. exact written_naming. Qed.
Print Assumptions C131_naming.

Example C131_statement_case : let p := sub_payload (Some pol_built) (Some (Constraints (Some 0%Z) (Some (Naming (Some [".example"]) [])) (Some []))) in let d := enc_statement kc_texts p in
  apart claim_names (sp_extra p) /\ claim "authority_hints" d = None /\ claim "crit" d = Some (JArr [JStr "jti"]) /\
  claim "constraints" d = Some (JObj [("max_path_length", JNum 0); ("naming_constraints", JObj [("permitted", JArr [JStr ".example"])])]) /\
  claim "metadata_policy" d = Some (JObj [("openid_relying_party", JObj [("contacts", JObj [("add", JArr [JStr "ops@ta.example"])]); ("default_max_age", JObj [("value", JNum 60)])])]).
Proof. exact c131_statement_case. Qed.

Theorem C131_response : forall r j, apart response_claims (rp_extra r) -> enc_response r = Ok j ->
  stated_when (pl_metadata (rp_payload r) <> None) (claim "metadata" j) /\ stated_when (pl_marks (rp_payload r) <> []) (claim "trust_marks" j) /\
  claim "trust_chain" j = names_claim (pl_chain (rp_payload r)).
Proof. exact written_response. Qed.
Print Assumptions C131_response.

Example C131_response_case : apart response_claims (rp_extra answer0) /\ exists j, enc_response answer0 = Ok j /\ claim "trust_chain" j = Some (JArr [JStr "eyJ.leaf.s"; JStr "eyJ.ta.s"]).
Proof. exact c131_response_case. Qed.
