(** Theorems C125 on entity statements from signing to parsing. *)
From Coq Require Import QArith.
From Verif Require Import Base GoVal Policy Schema Metadata SpecMetadata Chain Resolver SpecResolver WitnessResolver FloatTime SpecTime Json SpecJson TrustMark
  Refresher Leaf Config SpecConfig Jwt SpecJwt Statement SpecStatement WitnessStatement Encode SpecEncode EncodeFacts EncodeLaws WitnessEncode.
From Verif Require Import GoVal.
Local Open Scope nat_scope.
Local Open Scope string_scope.

(** ** C125 A signed entity statement is read as it was written *)

(** Whatever SignEntityStatement signs, the library parses, verifies with the signer's keys and
    reads as what was put in. Excluded by [payload_ok]: policies for other entity types, empty
    lists in constraints, empty key sets, times before 1677 or after 2262. *)
Theorem C125_read_partial : forall cx kc s p m jwt ks,
  sign_statement cx kc s p = Ok m -> cx_parse cx jwt = Some m -> signer_jwks cx s = Ok ks -> payload_ok kc p ->
  (exists st, parse_statement (read_jwt cx) kc jwt = Ok st /\ st_jwt st = jwt /\ statement_read p st) /\ verify_message m (Some ks) = Ok (enc_statement kc p).
Proof. exact signed_read. Qed.
Print Assumptions C125_read_partial.

Example C125_case : let p := sub_payload (Some pol_built) (Some c_built) in
  payload_ok kc_texts p /\ exists m ks st, sign_statement (cx_for p) kc_texts ta_signer p = Ok m /\ cx_parse (cx_for p) "a.b.c" = Some m /\ signer_jwks (cx_for p) ta_signer = Ok ks /\
    parse_statement (read_jwt (cx_for p)) kc_texts "a.b.c" = Ok st /\ st_sub st = LEAF /\ st_exp st = at_second 1000 /\
    (exists m em, st_metadata st = Some m /\ md_rp m = Some em /\ em_tag "client_name" em = Some (VStr "App") /\ attr_set "client_name" em = true /\
       em_tag "default_max_age" em = Some (VInt 60) /\ attr_set "require_auth_time" em = false /\ lookup "tier" (extra_value em) = Some (VFloat 3)) /\
    option_map mp_rp (st_policy st) = Some (Some [("contacts", [("add", VSlice TAny false [VStr "ops@ta.example"])]); ("default_max_age", [("value", VFloat 60)])]).
Proof. exact c125_case. Qed.

(** The entity configuration of a new federation entity: self-issued, with its keys, hints,
    metadata and the marks that could be obtained, valid from now for its lifetime. *)
Theorem C125_configuration : forall cx kc s id hints md ks lifetime now marks extra m jwt own, (0 < lifetime <= 9223372036)%Z ->
  let p := config_statement (new_entity id hints md ks lifetime) now marks extra in
  sign_statement cx kc s p = Ok m -> cx_parse cx jwt = Some m -> signer_jwks cx s = Ok own ->
  in_range now -> in_range (now + lifetime * 1000000000)%Z -> keys_ok kc ks -> given metadata_ok md -> apart claim_names extra ->
  exists st, parse_statement (read_jwt cx) kc jwt = Ok st /\ verify_message m (Some own) = Ok (enc_statement kc p) /\
    st_iss st = id /\ st_sub st = id /\ time_read now (st_iat st) /\ time_read (now + lifetime * 1000000000)%Z (st_exp st) /\
    st_jwks st = ks /\ st_hints st = hints /\ both metadata_read md (st_metadata st) /\ st_marks st = obtained_marks marks /\
    st_policy st = None /\ st_constraints st = None /\ st_crit st = [] /\ st_policy_crit st = [].
Proof. exact configuration_read. Qed.
Print Assumptions C125_configuration.

Example C125_configuration_case : let p := config_statement (new_entity LEAF [TA] (Some md_built) (Some ["kt"]) 3600%Z) now0 [("tm1", Ok "eyJ"); ("tm2", Err)] [("level", JNum 2)] in
  sign_statement (cx_for p) kc_texts ta_signer p = Ok (Msg (enc_statement kc_texts p) [Sig (Some "entity-statement+jwt") (Some "thumb:kt") "ES512" (Some "kt")]) /\
  in_range now0 /\ in_range (now0 + 3600 * 1000000000)%Z /\ keys_ok kc_texts (Some ["kt"]) /\ given metadata_ok (Some md_built) /\
  apart claim_names [("level", JNum 2)] /\
  exists st, parse_statement (read_jwt (cx_for p)) kc_texts "a.b.c" = Ok st /\ st_marks st = [("tm1", "eyJ")] /\ st_iat st <> now0.
Proof. exact c125_config_case. Qed.

(** The claims the library does not interpret are in the document as well. *)
Theorem C125_other_claims : forall kc p, apart claim_names (sp_extra p) ->
  claim "aud" (enc_statement kc p) = text_claim (sp_aud p) /\ claim "source_endpoint" (enc_statement kc p) = text_claim (sp_source p) /\
  claim "trust_anchor_id" (enc_statement kc p) = text_claim (sp_anchor p) /\
  forall k, ~ In k claim_names -> claim k (enc_statement kc p) = lookup k (sp_extra p).
Proof. exact other_claims. Qed.
Print Assumptions C125_other_claims.

Example C125_other_claims_case : let p := sub_payload (Some pol_built) (Some c_built) in apart claim_names (sp_extra p) /\
  claim "level" (enc_statement kc_texts p) = Some (JNum 2) /\ claim "aud" (enc_statement kc_texts p) = None /\
  claim "source_endpoint" (enc_statement kc_texts p) = Some (JStr "https://ta.example/fetch").
Proof. exact c125_claims_case. Qed.

(** A statement with a policy for any other entity type is signed, but cannot be read. *)
Theorem C125_refuted_policies : forall kc p q jwt k, apart claim_names (sp_extra p) -> st_policy (sp_claims p) = Some q ->
  In k (keys (mp_extra q)) -> ~ In k type_names -> dec_statement kc jwt (enc_statement kc p) = Err.
Proof. exact other_policies_unreadable. Qed.
Print Assumptions C125_refuted_policies.

Example C125_policies_case : let p := sub_payload (Some pol_shop) None in apart claim_names (sp_extra p) /\ In "shop" (keys (mp_extra pol_shop)) /\ ~ In "shop" type_names /\
  exists m, sign_statement (cx_for p) kc_texts ta_signer p = Ok m /\ cx_parse (cx_for p) "a.b.c" = Some m /\ parse_statement (read_jwt (cx_for p)) kc_texts "a.b.c" = Err.
Proof. exact c125_policies_case. Qed.

(** An empty list of allowed entity types, which allows none, is lost: entities that violate
    the constraint meet what is read. *)
Theorem C125_refuted_types : exists cx kc s p m jwt st c w below,
  sign_statement cx kc s p = Ok m /\ cx_parse cx jwt = Some m /\ parse_statement (read_jwt cx) kc jwt = Ok st /\ co_naming c = None /\ co_types c = Some [] /\
  st_constraints (sp_claims p) = Some c /\ ~ constraints_met w c below /\ (exists c', st_constraints st = Some c' /\ constraints_met w c' below).
Proof. exact c125_types. Qed.
Print Assumptions C125_refuted_types.

(** So is an empty list of permitted names. *)
Theorem C125_refuted_permitted : exists cx kc s p m jwt st c w below,
  sign_statement cx kc s p = Ok m /\ cx_parse cx jwt = Some m /\ parse_statement (read_jwt cx) kc jwt = Ok st /\ co_naming c = Some (Naming (Some []) []) /\ co_types c = None /\
  st_constraints (sp_claims p) = Some c /\ ~ constraints_met w c below /\ (exists c', st_constraints st = Some c' /\ constraints_met w c' below).
Proof. exact c125_permitted. Qed.
Print Assumptions C125_refuted_permitted.
