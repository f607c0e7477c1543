(** Specification vocabulary: the metadata parameters that OpenID Federation entities publish,
    as the standards name them. *)
From Coq Require Import QArith.
From Verif Require Import Base GoVal Policy Schema Metadata FloatTime Json SpecJson TrustMark Leaf SpecDecode SpecStatement.
From Verif Require Import GoVal.
Local Open Scope nat_scope.
Local Open Scope string_scope.

Inductive kind := Text | Texts | Flag | Number | KeySet | TextMap | TextsMap.

(** A JSON value of the kind and what it stands for. *)
Inductive of_kind : kind -> json -> gval -> Prop :=
| of_text s : of_kind Text (JStr s) (VStr s)
| of_texts l : of_kind Texts (JArr (map JStr l)) (VSlice TStr false (map VStr l))
| of_flag b : of_kind Flag (JBool b) (VBool b)
| of_number q z : (q == inject_Z z)%Q -> of_kind Number (JNum q) (VInt z)
| of_keys o w : same_value (JObj o) w -> of_kind KeySet (JObj o) (VJwks (Some w))
| of_text_map o kv : NoDup (keys kv) ->
    (forall k, match claim k (JObj o) with Some y => exists s, y = JStr s /\ lookup k kv = Some (VStr s) | None => lookup k kv = None end) ->
    of_kind TextMap (JObj o) (VMap TStr false kv)
| of_texts_map o kv : NoDup (keys kv) ->
    (forall k, match claim k (JObj o) with
               | Some y => exists l, y = JArr (map JStr l) /\ lookup k kv = Some (VSlice TStr false (map VStr l))
               | None => lookup k kv = None
               end) ->
    of_kind TextsMap (JObj o) (VMap (TSlice TStr) false kv).

(** OpenID Federation 1.0, 5.2.1 and 5.2.2: keys and informational parameters of all types but federation_entity
    (which has the latter only). *)
Definition jwks_parameters : list (string * kind) := [("signed_jwks_uri", Text); ("jwks_uri", Text); ("jwks", KeySet)].
Definition informational : list (string * kind) :=
  [("organization_name", Text); ("display_name", Text); ("description", Text); ("keywords", Texts); ("contacts", Texts); ("logo_uri", Text);
   ("policy_uri", Text); ("information_uri", Text); ("organization_uri", Text)].

(** OpenID Connect Discovery 1.0, section 3; OpenID Federation 1.0, 5.1.3. *)
Definition openid_provider_parameters : list (string * kind) :=
  [("issuer", Text); ("authorization_endpoint", Text); ("token_endpoint", Text); ("userinfo_endpoint", Text); ("jwks_uri", Text);
   ("registration_endpoint", Text); ("scopes_supported", Texts); ("response_types_supported", Texts); ("response_modes_supported", Texts);
   ("grant_types_supported", Texts); ("acr_values_supported", Texts); ("subject_types_supported", Texts);
   ("id_token_signing_alg_values_supported", Texts); ("id_token_encryption_alg_values_supported", Texts);
   ("id_token_encryption_enc_values_supported", Texts); ("userinfo_signing_alg_values_supported", Texts);
   ("userinfo_encryption_alg_values_supported", Texts); ("userinfo_encryption_enc_values_supported", Texts);
   ("request_object_signing_alg_values_supported", Texts); ("request_object_encryption_alg_values_supported", Texts);
   ("request_object_encryption_enc_values_supported", Texts); ("token_endpoint_auth_methods_supported", Texts);
   ("token_endpoint_auth_signing_alg_values_supported", Texts); ("display_values_supported", Texts); ("claim_types_supported", Texts);
   ("claims_supported", Texts); ("service_documentation", Text); ("claims_locales_supported", Texts); ("ui_locales_supported", Texts);
   ("claims_parameter_supported", Flag); ("request_parameter_supported", Flag); ("request_uri_parameter_supported", Flag);
   ("require_request_uri_registration", Flag); ("op_policy_uri", Text); ("op_tos_uri", Text);
   ("client_registration_types_supported", Texts); ("federation_registration_endpoint", Text);
   ("request_authentication_signing_alg_values_supported", Texts)].

(** OpenID Connect Dynamic Client Registration 1.0, section 2; OpenID Federation 1.0, 5.1.2. *)
Definition relying_party_parameters : list (string * kind) :=
  [("redirect_uris", Texts); ("response_types", Texts); ("grant_types", Texts); ("application_type", Text); ("contacts", Texts); ("client_name", Text);
   ("logo_uri", Text); ("client_uri", Text); ("policy_uri", Text); ("tos_uri", Text); ("jwks_uri", Text); ("sector_identifier_uri", Text);
   ("subject_type", Text); ("id_token_signed_response_alg", Text); ("id_token_encrypted_response_alg", Text); ("id_token_encrypted_response_enc", Text);
   ("userinfo_signed_response_alg", Text); ("userinfo_encrypted_response_alg", Text); ("userinfo_encrypted_response_enc", Text);
   ("request_object_signing_alg", Text); ("request_object_encryption_alg", Text); ("request_object_encryption_enc", Text);
   ("token_endpoint_auth_method", Text); ("token_endpoint_auth_signing_alg", Text); ("default_max_age", Number); ("require_auth_time", Flag);
   ("default_acr_values", Texts); ("initiate_login_uri", Text); ("request_uris", Texts); ("client_registration_types", Texts)].

(** RFC 8414, section 2. *)
Definition authorization_server_parameters : list (string * kind) :=
  [("issuer", Text); ("authorization_endpoint", Text); ("token_endpoint", Text); ("jwks_uri", Text); ("registration_endpoint", Text);
   ("scopes_supported", Texts); ("response_types_supported", Texts); ("response_modes_supported", Texts); ("grant_types_supported", Texts);
   ("token_endpoint_auth_methods_supported", Texts); ("token_endpoint_auth_signing_alg_values_supported", Texts); ("service_documentation", Text);
   ("ui_locales_supported", Texts); ("op_policy_uri", Text); ("op_tos_uri", Text); ("revocation_endpoint", Text);
   ("revocation_endpoint_auth_methods_supported", Texts); ("revocation_endpoint_auth_signing_alg_values_supported", Texts);
   ("introspection_endpoint", Text); ("introspection_endpoint_auth_methods_supported", Texts);
   ("introspection_endpoint_auth_signing_alg_values_supported", Texts); ("code_challenge_methods_supported", Texts); ("signed_metadata", Text)].

(** RFC 7591, section 2. *)
Definition oauth_client_parameters : list (string * kind) :=
  [("redirect_uris", Texts); ("token_endpoint_auth_method", Text); ("grant_types", Texts); ("response_types", Texts); ("client_name", Text);
   ("client_uri", Text); ("logo_uri", Text); ("scope", Text); ("contacts", Texts); ("tos_uri", Text); ("policy_uri", Text); ("jwks_uri", Text);
   ("software_id", Text); ("software_version", Text)].

(** RFC 9728, section 2. *)
Definition protected_resource_parameters : list (string * kind) :=
  [("resource", Text); ("authorization_servers", Texts); ("jwks_uri", Text); ("scopes_supported", Texts); ("bearer_methods_supported", Texts);
   ("resource_signing_alg_values_supported", Texts); ("resource_name", Text); ("resource_documentation", Text); ("resource_policy_uri", Text);
   ("resource_tos_uri", Text); ("tls_client_certificate_bound_access_tokens", Flag); ("authorization_details_types_supported", Texts);
   ("dpop_signing_alg_values_supported", Texts); ("dpop_bound_access_tokens_required", Flag)].

(** OpenID Federation 1.0, 5.1.1. *)
Definition federation_entity_parameters : list (string * kind) :=
  [("federation_fetch_endpoint", Text); ("federation_list_endpoint", Text); ("federation_resolve_endpoint", Text);
   ("federation_trust_mark_status_endpoint", Text); ("federation_trust_mark_list_endpoint", Text); ("federation_trust_mark_endpoint", Text);
   ("federation_historical_keys_endpoint", Text)].

(** The registry of authorization server metadata (RFC 8414, RFC 8628, RFC 8705, RFC 9101, RFC 9126,
    RFC 9207, RFC 9396, RFC 9449, RFC 9701, OpenID Connect logout and CIBA, ETSI NFV) and OpenID
    Federation, for providers and authorization servers. *)
Definition server_extensions : list (string * kind) :=
  [("revocation_endpoint", Text); ("revocation_endpoint_auth_methods_supported", Texts); ("revocation_endpoint_auth_signing_alg_values_supported", Texts);
   ("introspection_endpoint", Text); ("introspection_endpoint_auth_methods_supported", Texts); ("introspection_endpoint_auth_signing_alg_values_supported", Texts);
   ("introspection_signing_alg_values_supported", Texts); ("introspection_encryption_alg_values_supported", Texts);
   ("introspection_encryption_enc_values_supported", Texts); ("code_challenge_methods_supported", Texts); ("signed_metadata", Text);
   ("device_authorization_endpoint", Text); ("tls_client_certificate_bound_access_tokens", Flag); ("mtls_endpoint_aliases", TextMap);
   ("nfv_token_signing_alg_values_supported", Texts); ("nfv_token_encryption_alg_values_supported", Texts); ("nfv_token_encryption_enc_values_supported", Texts);
   ("require_signed_request_object", Flag); ("pushed_authorization_request_endpoint", Text); ("require_pushed_authorization_requests", Flag);
   ("authorization_response_iss_parameter_supported", Flag); ("check_session_iframe", Text); ("frontchannel_logout_supported", Flag);
   ("frontchannel_logout_session_supported", Flag); ("backchannel_logout_supported", Flag); ("backchannel_logout_session_supported", Flag);
   ("end_session_endpoint", Text); ("backchannel_token_delivery_modes_supported", Texts); ("backchannel_authentication_endpoint", Text);
   ("backchannel_authentication_request_signing_alg_values_supported", Texts); ("backchannel_user_code_parameter_supported", Flag);
   ("authorization_details_types_supported", Texts); ("dpop_signing_alg_values_supported", Texts);
   ("client_registration_types_supported", Texts); ("federation_registration_endpoint", Text);
   ("request_authentication_methods_supported", TextsMap); ("request_authentication_signing_alg_values_supported", Texts)].

(** The registry of client metadata (RFC 7591, RFC 7592, RFC 8705, RFC 9101, RFC 9126, RFC 9396, RFC 9449,
    RFC 9701, UMA, OpenID Connect logout and CIBA, ETSI NFV), for relying parties and clients. *)
Definition client_extensions : list (string * kind) :=
  [("scope", Text); ("software_id", Text); ("software_version", Text); ("client_id", Text); ("client_secret", Text); ("client_id_issued_at", Number);
   ("client_secret_expires_at", Number); ("registration_access_token", Text); ("registration_client_uri", Text); ("claims_redirect_uris", Texts);
   ("nfv_token_signed_response_alg", Text); ("nfv_token_encrypted_response_alg", Text); ("nfv_token_encrypted_response_enc", Text);
   ("tls_client_certificate_bound_access_tokens", Flag); ("tls_client_auth_subject_dn", Text); ("tls_client_auth_san_dns", Text);
   ("tls_client_auth_san_uri", Text); ("tls_client_auth_san_ip", Text); ("tls_client_auth_san_email", Text); ("require_signed_request_object", Flag);
   ("require_pushed_authorization_requests", Flag); ("introspection_signed_response_alg", Text); ("introspection_encrypted_response_alg", Text);
   ("introspection_encrypted_response_enc", Text); ("frontchannel_logout_uri", Text); ("frontchannel_logout_session_required", Flag);
   ("backchannel_logout_uri", Text); ("backchannel_logout_session_required", Flag); ("post_logout_redirect_uris", Texts);
   ("authorization_details_types", Texts); ("dpop_bound_access_tokens", Flag); ("backchannel_token_delivery_mode", Text);
   ("backchannel_client_notification_endpoint", Text); ("backchannel_authentication_request_signing_alg", Text); ("backchannel_user_code_parameter", Flag)].
Definition server_missing : list string := ["frontchannel_logout_session_supported"; "dpop_signing_alg_values_supported"].
Definition client_missing : list string :=
  ["dpop_bound_access_tokens"; "backchannel_token_delivery_mode"; "backchannel_client_notification_endpoint"; "backchannel_authentication_request_signing_alg";
   "backchannel_user_code_parameter"].

Definition standard_parameters (t : string) : list (string * kind) :=
  match lookup t [("openid_provider", openid_provider_parameters ++ server_extensions ++ jwks_parameters); ("openid_relying_party", relying_party_parameters ++ client_extensions ++ jwks_parameters);
                  ("oauth_authorization_server", authorization_server_parameters ++ server_extensions ++ jwks_parameters); ("oauth_client", oauth_client_parameters ++ client_extensions ++ jwks_parameters);
                  ("oauth_resource", protected_resource_parameters ++ jwks_parameters); ("federation_entity", federation_entity_parameters)]%list with
  | Some l => (l ++ informational)%list
  | None => []
  end.

(** Those the library has no field for. *)
Definition missing_parameters (t : string) : list string :=
  match lookup t
    [("openid_provider",
      ["id_token_signing_alg_values_supported"; "id_token_encryption_alg_values_supported"; "id_token_encryption_enc_values_supported";
       "userinfo_signing_alg_values_supported"; "userinfo_encryption_alg_values_supported"; "userinfo_encryption_enc_values_supported";
       "request_object_signing_alg_values_supported"; "request_object_encryption_alg_values_supported"; "request_object_encryption_enc_values_supported";
       "claim_types_supported"] ++ server_missing);
     ("oauth_authorization_server", server_missing); ("oauth_client", client_missing);
     ("openid_relying_party", ["request_object_signing_alg"; "request_object_encryption_alg"; "request_object_encryption_enc"] ++ client_missing);
     ("oauth_resource", ["tls_client_certificate_bound_access_tokens"; "authorization_details_types_supported";
                         "dpop_signing_alg_values_supported"; "dpop_bound_access_tokens_required"])]%list with
  | Some l => l
  | None => []
  end.

(** The metadata of an entity type by its name. *)
Definition typed (t : string) (m : metadata) : option emeta :=
  match lookup t [("openid_provider", md_op m); ("openid_relying_party", md_rp m); ("oauth_authorization_server", md_as m); ("oauth_client", md_oc m);
                  ("oauth_resource", md_pr m); ("federation_entity", md_fe m)] with
  | Some em => em
  | None => None
  end.
