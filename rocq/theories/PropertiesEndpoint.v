(** Where endpoints and provider data come from: theorems (C130). *)
From Coq Require Import QArith.
From Verif Require Import Base GoVal Policy Schema Metadata SpecMetadata Chain Resolver FloatTime Json SpecJson TrustMark Leaf Discovery Config Statement SpecStatement Encode SpecEncode SpecEndpoint EndpointFacts
  WitnessResolver WitnessStatement WitnessEndpoint.
From Verif Require Import GoVal.
Local Open Scope nat_scope.
Local Open Scope string_scope.

(** ** C130 Requests go to the endpoints an entity states under the standard names *)

(** The endpoints used for fetching, listing, resolving and trust mark requests are the texts
    the entity's configuration states, and empty where it states none. *)
Theorem C130_endpoints : forall parse kc jwt s typ j, parse_statement parse kc jwt = Ok s -> parse jwt = Some (typ, j) -> plain j ->
  fetch_endpoint s = text_at ["metadata"; "federation_entity"; "federation_fetch_endpoint"] j /\
  list_endpoint s = text_at ["metadata"; "federation_entity"; "federation_list_endpoint"] j /\
  resolve_endpoint s = text_at ["metadata"; "federation_entity"; "federation_resolve_endpoint"] j /\
  mark_endpoint s = text_at ["metadata"; "federation_entity"; "federation_trust_mark_endpoint"] j.
Proof. exact endpoints_stated. Qed.
Print Assumptions C130_endpoints.

Example C130_case : plain provider_doc /\ parse_statement parse_provider kc_texts "kl:op" = Ok provider1 /\
  fetch_endpoint provider1 = "https://op.example/fetch" /\ list_endpoint provider1 = "https://op.example/list" /\
  resolve_endpoint provider1 = "https://op.example/resolve" /\ mark_endpoint provider1 = "https://op.example/mark".
Proof. exact c130_case. Qed.

(** The issuer, authorization and token endpoint a relying party uses are the provider's
    attributes of those names. *)
Theorem C130_provider : forall op, map fst (em_fields op) = op_schema ->
  op_str "Issuer" op = attr_text "issuer" op /\ op_str "AuthorizationEndpoint" op = attr_text "authorization_endpoint" op /\
  op_str "TokenEndpoint" op = attr_text "token_endpoint" op.
Proof. exact provider_stated. Qed.
Print Assumptions C130_provider.

(** The filters on providers look at the attributes of those names, and decide inclusion. *)
Theorem C130_filters : forall m op needed how, md_op m = Some op -> entity_ok op_schema op ->
  (exists b, supports_grants needed (Some m) = Ok b /\ (b = true <-> incl needed (attr_texts "grant_types_supported" op))) /\
  (exists b, supports_scopes needed (Some m) = Ok b /\ (b = true <-> incl needed (attr_texts "scopes_supported" op))) /\
  (registers how (Some m) = true <-> In how (attr_texts "client_registration_types_supported" op)).
Proof. exact provider_filters. Qed.
Print Assumptions C130_filters.

Example C130_provider_case : exists m, st_metadata provider1 = Some m /\ md_op m = Some provider_op /\ entity_ok op_schema provider_op /\
  op_str "Issuer" provider_op = "https://op.example" /\ op_str "AuthorizationEndpoint" provider_op = "https://op.example/auth" /\ op_str "TokenEndpoint" provider_op = "https://op.example/token" /\
  attr_texts "grant_types_supported" provider_op = ["authorization_code"; "refresh_token"] /\ attr_texts "scopes_supported" provider_op = ["openid"; "email"] /\
  supports_grants ["refresh_token"] (Some m) = Ok true /\ supports_scopes ["openid"; "phone"] (Some m) = Ok false /\
  registers "automatic" (Some m) = true /\ registers "explicit" (Some m) = false.
Proof. exact c130_provider_case. Qed.
