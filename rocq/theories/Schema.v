(** Field tables of the typed metadata structs, generated from
    /repo/metadata_generated.go. Each row: Go field name, json tag without options,
    whether the tag has ",omitempty", Go type. The unexported field wasSet (no json
    tag) is modelled separately by the [f_set] flags of Metadata.v.
    Used at metadata_generated.go:14-33. *)
From Verif Require Import Base GoVal.
Local Open Scope string_scope.

Record frow := FRow { fr_name : string; fr_tag : string; fr_omitempty : bool; fr_ty : gty }.

(** FederationEntityMetadata: metadata_generated.go:14-33 (same fields, in the same order, as
    federationEntityMetadataWithPtrs: metadata_generated.go:35-53). *)
Definition fe_schema : list frow :=
  [ FRow "FederationFetchEndpoint" "federation_fetch_endpoint" true (TStr)
  ; FRow "FederationListEndpoint" "federation_list_endpoint" true (TStr)
  ; FRow "FederationResolveEndpoint" "federation_resolve_endpoint" true (TStr)
  ; FRow "FederationTrustMarkStatusEndpoint" "federation_trust_mark_status_endpoint" true (TStr)
  ; FRow "FederationTrustMarkListEndpoint" "federation_trust_mark_list_endpoint" true (TStr)
  ; FRow "FederationTrustMarkEndpoint" "federation_trust_mark_endpoint" true (TStr)
  ; FRow "FederationHistoricalLKeysEndpoint" "federation_historical_keys_endpoint" true (TStr)
  ; FRow "Extra" "-" false (TMap TAny)
  ; FRow "DisplayName" "display_name" true (TStr)
  ; FRow "Description" "description" true (TStr)
  ; FRow "Keywords" "keywords" true (TSlice TStr)
  ; FRow "Contacts" "contacts" true (TSlice TStr)
  ; FRow "LogoURI" "logo_uri" true (TStr)
  ; FRow "PolicyURI" "policy_uri" true (TStr)
  ; FRow "InformationURI" "information_uri" true (TStr)
  ; FRow "OrganizationName" "organization_name" true (TStr)
  ; FRow "OrganizationURI" "organization_uri" true (TStr) ].

(** OpenIDRelyingPartyMetadata: metadata_generated.go:159-230 (same fields, in the same order, as
    openIDRelyingPartyMetadataWithPtrs: metadata_generated.go:232-302). *)
Definition rp_schema : list frow :=
  [ FRow "Scope" "scope" true (TStr)
  ; FRow "RedirectURIS" "redirect_uris" true (TSlice TStr)
  ; FRow "ResponseTypes" "response_types" true (TSlice TStr)
  ; FRow "GrantTypes" "grant_types" true (TSlice TStr)
  ; FRow "ApplicationType" "application_type" true (TStr)
  ; FRow "Contacts" "contacts" true (TSlice TStr)
  ; FRow "ClientName" "client_name" true (TStr)
  ; FRow "LogoURI" "logo_uri" true (TStr)
  ; FRow "ClientURI" "client_uri" true (TStr)
  ; FRow "PolicyURI" "policy_uri" true (TStr)
  ; FRow "TOSURI" "tos_uri" true (TStr)
  ; FRow "SectorIdentifierURI" "sector_identifier_uri" true (TStr)
  ; FRow "SubjectType" "subject_type" true (TStr)
  ; FRow "IDTokenSignedResponseAlg" "id_token_signed_response_alg" true (TStr)
  ; FRow "IDTokenEncryptedResponseAlg" "id_token_encrypted_response_alg" true (TStr)
  ; FRow "IDTokenEncryptedResponseEnc" "id_token_encrypted_response_enc" true (TStr)
  ; FRow "UserinfoSignedResponseAlg" "userinfo_signed_response_alg" true (TStr)
  ; FRow "UserinfoEncryptedResponseAlg" "userinfo_encrypted_response_alg" true (TStr)
  ; FRow "UserinfoEncryptedResponseEnc" "userinfo_encrypted_response_enc" true (TStr)
  ; FRow "RequestSignedResponseAlg" "request_signed_response_alg" true (TStr)
  ; FRow "RequestEncryptedResponseAlg" "request_encrypted_response_alg" true (TStr)
  ; FRow "RequestEncryptedResponseEnc" "request_encrypted_response_enc" true (TStr)
  ; FRow "TokenEndpointAuthMethod" "token_endpoint_auth_method" true (TStr)
  ; FRow "TokenEndpointAuthSigningAlg" "token_endpoint_auth_signing_alg" true (TStr)
  ; FRow "DefaultMaxAge" "default_max_age" true (TInt)
  ; FRow "RequireAuthTime" "require_auth_time" true (TBool)
  ; FRow "DefaultACRValues" "default_acr_values" true (TSlice TStr)
  ; FRow "InitiateLoginURI" "initiate_login_uri" true (TStr)
  ; FRow "RequestURIs" "request_uris" true (TSlice TStr)
  ; FRow "SoftwareID" "software_id" true (TStr)
  ; FRow "SoftwareVersion" "software_version" true (TStr)
  ; FRow "ClientID" "client_id" true (TStr)
  ; FRow "ClientSecret" "client_secret" true (TStr)
  ; FRow "ClientIDIssuedAt" "client_id_issued_at" true (TInt)
  ; FRow "ClientSecretExpiresAt" "client_secret_expires_at" true (TInt)
  ; FRow "RegistrationAccessToken" "registration_access_token" true (TStr)
  ; FRow "RegistrationClientURI" "registration_client_uri" true (TStr)
  ; FRow "ClaimsRedirectURIs" "claims_redirect_uris" true (TSlice TStr)
  ; FRow "NFVTokenSignedResponseAlg" "nfv_token_signed_response_alg" true (TStr)
  ; FRow "NFVTokenEncryptedResponseAlg" "nfv_token_encrypted_response_alg" true (TStr)
  ; FRow "NFVTokenEncryptedResponseEnc" "nfv_token_encrypted_response_enc" true (TStr)
  ; FRow "TLSClientCertificateBoundAccessTokens" "tls_client_certificate_bound_access_tokens" true (TBool)
  ; FRow "TLSClientAuthSubjectDN" "tls_client_auth_subject_dn" true (TStr)
  ; FRow "TLSClientAuthSANDNS" "tls_client_auth_san_dns" true (TStr)
  ; FRow "TLSClientAuthSANURI" "tls_client_auth_san_uri" true (TStr)
  ; FRow "TLSClientAuthSANIP" "tls_client_auth_san_ip" true (TStr)
  ; FRow "TLSClientAuthSANEMAIL" "tls_client_auth_san_email" true (TStr)
  ; FRow "RequireSignedRequestObject" "require_signed_request_object" true (TBool)
  ; FRow "RequirePushedAuthorizationRequests" "require_pushed_authorization_requests" true (TBool)
  ; FRow "IntrospectionSignedResponseAlg" "introspection_signed_response_alg" true (TStr)
  ; FRow "IntrospectionEncryptedResponseAlg" "introspection_encrypted_response_alg" true (TStr)
  ; FRow "IntrospectionEncryptedResponseEnc" "introspection_encrypted_response_enc" true (TStr)
  ; FRow "FrontchannelLogoutURI" "frontchannel_logout_uri" true (TStr)
  ; FRow "FrontchannelLogoutSessionRequired" "frontchannel_logout_session_required" true (TBool)
  ; FRow "BackchannelLogoutURI" "backchannel_logout_uri" true (TStr)
  ; FRow "BackchannelLogoutSessionRequired" "backchannel_logout_session_required" true (TBool)
  ; FRow "PostLogoutRedirectURIs" "post_logout_redirect_uris" true (TSlice TStr)
  ; FRow "AuthorizationDetailsTypes" "authorization_details_types" true (TSlice TStr)
  ; FRow "ClientRegistrationTypes" "client_registration_types" false (TSlice TStr)
  ; FRow "Extra" "-" false (TMap TAny)
  ; FRow "SignedJWKSURI" "signed_jwks_uri" true (TStr)
  ; FRow "JWKSURI" "jwks_uri" true (TStr)
  ; FRow "JWKS" "jwks" true (TJwks)
  ; FRow "DisplayName" "display_name" true (TStr)
  ; FRow "Description" "description" true (TStr)
  ; FRow "Keywords" "keywords" true (TSlice TStr)
  ; FRow "InformationURI" "information_uri" true (TStr)
  ; FRow "OrganizationName" "organization_name" true (TStr)
  ; FRow "OrganizationURI" "organization_uri" true (TStr) ].

(** OpenIDProviderMetadata: metadata_generated.go:408-491 (same fields, in the same order, as
    openIDProviderMetadataWithPtrs: metadata_generated.go:493-575). *)
Definition op_schema : list frow :=
  [ FRow "Issuer" "issuer" false (TStr)
  ; FRow "AuthorizationEndpoint" "authorization_endpoint" false (TStr)
  ; FRow "TokenEndpoint" "token_endpoint" false (TStr)
  ; FRow "UserinfoEndpoint" "userinfo_endpoint" true (TStr)
  ; FRow "RegistrationEndpoint" "registration_endpoint" true (TStr)
  ; FRow "ScopesSupported" "scopes_supported" true (TSlice TStr)
  ; FRow "ResponseTypesSupported" "response_types_supported" false (TSlice TStr)
  ; FRow "ResponseModesSupported" "response_modes_supported" true (TSlice TStr)
  ; FRow "GrantTypesSupported" "grant_types_supported" true (TSlice TStr)
  ; FRow "ACRValuesSupported" "acr_values_supported" true (TSlice TStr)
  ; FRow "SubjectTypesSupported" "subject_types_supported" false (TSlice TStr)
  ; FRow "IDTokenSignedResponseAlgValuesSupported" "id_token_signed_response_alg_values_supported" true (TSlice TStr)
  ; FRow "IDTokenEncryptedResponseAlgValuesSupported" "id_token_encrypted_response_alg_values_supported" true (TSlice TStr)
  ; FRow "IDTokenEncryptedResponseEncValuesSupported" "id_token_encrypted_response_enc_values_supported" true (TSlice TStr)
  ; FRow "UserinfoSignedResponseAlgValuesSupported" "userinfo_signed_response_alg_values_supported" true (TSlice TStr)
  ; FRow "UserinfoEncryptedResponseAlgValuesSupported" "userinfo_encrypted_response_alg_values_supported" true (TSlice TStr)
  ; FRow "UserinfoEncryptedResponseEncValuesSupported" "userinfo_encrypted_response_enc_values_supported" true (TSlice TStr)
  ; FRow "RequestSignedResponseAlgValuesSupported" "request_signed_response_alg_values_supported" true (TSlice TStr)
  ; FRow "RequestEncryptedResponseAlgValuesSupported" "request_encrypted_response_alg_values_supported" true (TSlice TStr)
  ; FRow "RequestEncryptedResponseEncValuesSupported" "request_encrypted_response_enc_values_supported" true (TSlice TStr)
  ; FRow "TokenEndpointAuthMethodsSupported" "token_endpoint_auth_methods_supported" true (TSlice TStr)
  ; FRow "TokenEndpointAuthSigningAlgValuesSupported" "token_endpoint_auth_signing_alg_values_supported" true (TSlice TStr)
  ; FRow "DisplayValuesSupported" "display_values_supported" true (TSlice TStr)
  ; FRow "ClaimsSupported" "claims_supported" true (TSlice TStr)
  ; FRow "ServiceDocumentation" "service_documentation" true (TStr)
  ; FRow "ClaimsLocalesSupported" "claims_locales_supported" true (TSlice TStr)
  ; FRow "UILocalesSupported" "ui_locales_supported" true (TSlice TStr)
  ; FRow "ClaimsParameterSupported" "claims_parameter_supported" true (TBool)
  ; FRow "RequestParameterSupported" "request_parameter_supported" true (TBool)
  ; FRow "RequestURIParameterSupported" "request_uri_parameter_supported" true (TBool)
  ; FRow "RequireRequestURIRegistration" "require_request_uri_registration" true (TBool)
  ; FRow "OPPolicyURI" "op_policy_uri" true (TStr)
  ; FRow "OPTOSURI" "op_tos_uri" true (TStr)
  ; FRow "RevocationEndpoint" "revocation_endpoint" true (TStr)
  ; FRow "RevocationEndpointAuthMethodsSupported" "revocation_endpoint_auth_methods_supported" true (TSlice TStr)
  ; FRow "RevocationEndpointAuthSigningAlgValuesSupported" "revocation_endpoint_auth_signing_alg_values_supported" true (TSlice TStr)
  ; FRow "IntrospectionEndpoint" "introspection_endpoint" true (TStr)
  ; FRow "IntrospectionEndpointAuthMethodsSupported" "introspection_endpoint_auth_methods_supported" true (TSlice TStr)
  ; FRow "IntrospectionEndpointAuthSigningAlgValuesSupported" "introspection_endpoint_auth_signing_alg_values_supported" true (TSlice TStr)
  ; FRow "IntrospectionSigningAlgValuesSupported" "introspection_signing_alg_values_supported" true (TSlice TStr)
  ; FRow "IntrospectionEncryptionAlgValuesSupported" "introspection_encryption_alg_values_supported" true (TSlice TStr)
  ; FRow "IntrospectionEncryptionEncValuesSupported" "introspection_encryption_enc_values_supported" true (TSlice TStr)
  ; FRow "CodeChallengeMethodsSupported" "code_challenge_methods_supported" true (TSlice TStr)
  ; FRow "SignedMetadata" "signed_metadata" true (TStr)
  ; FRow "DeviceAuthorizationEndpoint" "device_authorization_endpoint" true (TStr)
  ; FRow "TLSClientCertificateBoundAccessTokens" "tls_client_certificate_bound_access_tokens" true (TBool)
  ; FRow "MTLSEndpointAliases" "mtls_endpoint_aliases" true (TMap TStr)
  ; FRow "NFVTokenSigningAlgValuesSupported" "nfv_token_signing_alg_values_supported" true (TSlice TStr)
  ; FRow "NFVTokenEncryptionAlgValuesSupported" "nfv_token_encryption_alg_values_supported" true (TSlice TStr)
  ; FRow "NFVTokenEncryptionEncValuesSupported" "nfv_token_encryption_enc_values_supported" true (TSlice TStr)
  ; FRow "RequireSignedRequestObject" "require_signed_request_object" true (TBool)
  ; FRow "PushedAuthorizationRequestEndpoint" "pushed_authorization_request_endpoint" true (TStr)
  ; FRow "RequirePushedAuthorizationRequests" "require_pushed_authorization_requests" true (TBool)
  ; FRow "AuthorizationResponseIssParameterSupported" "authorization_response_iss_parameter_supported" true (TBool)
  ; FRow "CheckSessionIFrame" "check_session_iframe" true (TStr)
  ; FRow "FrontchannelLogoutSupported" "frontchannel_logout_supported" true (TBool)
  ; FRow "BackchannelLogoutSupported" "backchannel_logout_supported" true (TBool)
  ; FRow "BackchannelLogoutSessionSupported" "backchannel_logout_session_supported" true (TBool)
  ; FRow "EndSessionEndpoint" "end_session_endpoint" true (TStr)
  ; FRow "BackchannelTokenDeliveryModesSupported" "backchannel_token_delivery_modes_supported" true (TSlice TStr)
  ; FRow "BackchannelAuthenticationEndpoint" "backchannel_authentication_endpoint" true (TStr)
  ; FRow "BackchannelAuthenticationRequestSigningAlgValuesSupported" "backchannel_authentication_request_signing_alg_values_supported" true (TSlice TStr)
  ; FRow "BackchannelUserCodeParameterSupported" "backchannel_user_code_parameter_supported" true (TBool)
  ; FRow "AuthorizationDetailsTypesSupported" "authorization_details_types_supported" true (TSlice TStr)
  ; FRow "ClientRegistrationTypesSupported" "client_registration_types_supported" false (TSlice TStr)
  ; FRow "FederationRegistrationEndpoint" "federation_registration_endpoint" true (TStr)
  ; FRow "RequestAuthenticationMethodsSupported" "request_authentication_methods_supported" true (TMap (TSlice TStr))
  ; FRow "RequestAuthenticationSigningAlgValuesSupported" "request_authentication_signing_alg_values_supported" true (TSlice TStr)
  ; FRow "Extra" "-" false (TMap TAny)
  ; FRow "SignedJWKSURI" "signed_jwks_uri" true (TStr)
  ; FRow "JWKSURI" "jwks_uri" true (TStr)
  ; FRow "JWKS" "jwks" true (TJwks)
  ; FRow "DisplayName" "display_name" true (TStr)
  ; FRow "Description" "description" true (TStr)
  ; FRow "Keywords" "keywords" true (TSlice TStr)
  ; FRow "Contacts" "contacts" true (TSlice TStr)
  ; FRow "LogoURI" "logo_uri" true (TStr)
  ; FRow "PolicyURI" "policy_uri" true (TStr)
  ; FRow "InformationURI" "information_uri" true (TStr)
  ; FRow "OrganizationName" "organization_name" true (TStr)
  ; FRow "OrganizationURI" "organization_uri" true (TStr) ].

(** OAuthProtectedResourceMetadata: metadata_generated.go:681-707 (same fields, in the same order, as
    oAuthProtectedResourceMetadataWithPtrs: metadata_generated.go:709-734). *)
Definition pr_schema : list frow :=
  [ FRow "Resource" "resource" true (TStr)
  ; FRow "AuthorizationServers" "authorization_servers" true (TSlice TStr)
  ; FRow "ScopesSupported" "scopes_supported" true (TSlice TStr)
  ; FRow "BearerMethodsSupported" "bearer_methods_supported" true (TSlice TStr)
  ; FRow "ResourceSigningAlgValuesSupported" "resource_signing_alg_values_supported" true (TSlice TStr)
  ; FRow "ResourceEncryptionAlgValuesSupported" "resource_encryption_alg_values_supported" false (TSlice TStr)
  ; FRow "ResourceEncryptionEncValuesSupported" "resource_encryption_enc_values_supported" false (TSlice TStr)
  ; FRow "ResourceName" "resource_name" true (TStr)
  ; FRow "ResourceDocumentation" "resource_documentation" true (TStr)
  ; FRow "ResourcePolicyURI" "resource_policy_uri" true (TStr)
  ; FRow "ResourceTOSURI" "resource_tos_uri" true (TStr)
  ; FRow "Extra" "-" false (TMap TAny)
  ; FRow "SignedJWKSURI" "signed_jwks_uri" true (TStr)
  ; FRow "JWKSURI" "jwks_uri" true (TStr)
  ; FRow "JWKS" "jwks" true (TJwks)
  ; FRow "DisplayName" "display_name" true (TStr)
  ; FRow "Description" "description" true (TStr)
  ; FRow "Keywords" "keywords" true (TSlice TStr)
  ; FRow "Contacts" "contacts" true (TSlice TStr)
  ; FRow "LogoURI" "logo_uri" true (TStr)
  ; FRow "PolicyURI" "policy_uri" true (TStr)
  ; FRow "InformationURI" "information_uri" true (TStr)
  ; FRow "OrganizationName" "organization_name" true (TStr)
  ; FRow "OrganizationURI" "organization_uri" true (TStr) ].
