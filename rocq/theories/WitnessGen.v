(** The declarations in metadata_input.go, and others on which the generator fails. *)
From Coq Require Import Permutation.
From Verif Require Import Base BaseFacts GoVal Schema Gen SpecGen GenFacts.
Local Open Scope nat_scope.
Local Open Scope string_scope.

(** A field with a json tag as written in Go. *)
Definition jtag (t : string) : string := "`json:""" ++ t ++ """`".
Definition fld (n : string) (e : texpr) (t : string) : fdecl := FDecl [n] e (Some (jtag t)).

(** metadata_input.go:9-23 *)
Definition in_common : list fdecl :=
  [ fld "SignedJWKSURI" (EName "string") "signed_jwks_uri,omitempty"
  ; fld "JWKSURI" (EName "string") "jwks_uri,omitempty"
  ; fld "JWKS" (EStar (EQual "jwks" "JWKS")) "jwks,omitempty"
  ; fld "DisplayName" (EName "string") "display_name,omitempty"
  ; fld "Description" (EName "string") "description,omitempty"
  ; fld "Keywords" (EArray None (EName "string")) "keywords,omitempty"
  ; fld "Contacts" (EArray None (EName "string")) "contacts,omitempty"
  ; fld "LogoURI" (EName "string") "logo_uri,omitempty"
  ; fld "PolicyURI" (EName "string") "policy_uri,omitempty"
  ; fld "InformationURI" (EName "string") "information_uri,omitempty"
  ; fld "OrganizationName" (EName "string") "organization_name,omitempty"
  ; fld "OrganizationURI" (EName "string") "organization_uri,omitempty" ].
(** metadata_input.go:25-87 *)
Definition in_rp : list fdecl :=
  [ fld "Scope" (EName "string") "scope,omitempty"
  ; fld "RedirectURIS" (EArray None (EName "string")) "redirect_uris,omitempty"
  ; fld "ResponseTypes" (EArray None (EName "string")) "response_types,omitempty"
  ; fld "GrantTypes" (EArray None (EName "string")) "grant_types,omitempty"
  ; fld "ApplicationType" (EName "string") "application_type,omitempty"
  ; fld "Contacts" (EArray None (EName "string")) "contacts,omitempty"
  ; fld "ClientName" (EName "string") "client_name,omitempty"
  ; fld "LogoURI" (EName "string") "logo_uri,omitempty"
  ; fld "ClientURI" (EName "string") "client_uri,omitempty"
  ; fld "PolicyURI" (EName "string") "policy_uri,omitempty"
  ; fld "TOSURI" (EName "string") "tos_uri,omitempty"
  ; fld "SectorIdentifierURI" (EName "string") "sector_identifier_uri,omitempty"
  ; fld "SubjectType" (EName "string") "subject_type,omitempty"
  ; fld "IDTokenSignedResponseAlg" (EName "string") "id_token_signed_response_alg,omitempty"
  ; fld "IDTokenEncryptedResponseAlg" (EName "string") "id_token_encrypted_response_alg,omitempty"
  ; fld "IDTokenEncryptedResponseEnc" (EName "string") "id_token_encrypted_response_enc,omitempty"
  ; fld "UserinfoSignedResponseAlg" (EName "string") "userinfo_signed_response_alg,omitempty"
  ; fld "UserinfoEncryptedResponseAlg" (EName "string") "userinfo_encrypted_response_alg,omitempty"
  ; fld "UserinfoEncryptedResponseEnc" (EName "string") "userinfo_encrypted_response_enc,omitempty"
  ; fld "RequestSignedResponseAlg" (EName "string") "request_signed_response_alg,omitempty"
  ; fld "RequestEncryptedResponseAlg" (EName "string") "request_encrypted_response_alg,omitempty"
  ; fld "RequestEncryptedResponseEnc" (EName "string") "request_encrypted_response_enc,omitempty"
  ; fld "TokenEndpointAuthMethod" (EName "string") "token_endpoint_auth_method,omitempty"
  ; fld "TokenEndpointAuthSigningAlg" (EName "string") "token_endpoint_auth_signing_alg,omitempty"
  ; fld "DefaultMaxAge" (EName "int64") "default_max_age,omitempty"
  ; fld "RequireAuthTime" (EName "bool") "require_auth_time,omitempty"
  ; fld "DefaultACRValues" (EArray None (EName "string")) "default_acr_values,omitempty"
  ; fld "InitiateLoginURI" (EName "string") "initiate_login_uri,omitempty"
  ; fld "RequestURIs" (EArray None (EName "string")) "request_uris,omitempty"
  ; fld "SoftwareID" (EName "string") "software_id,omitempty"
  ; fld "SoftwareVersion" (EName "string") "software_version,omitempty"
  ; fld "ClientID" (EName "string") "client_id,omitempty"
  ; fld "ClientSecret" (EName "string") "client_secret,omitempty"
  ; fld "ClientIDIssuedAt" (EName "int64") "client_id_issued_at,omitempty"
  ; fld "ClientSecretExpiresAt" (EName "int64") "client_secret_expires_at,omitempty"
  ; fld "RegistrationAccessToken" (EName "string") "registration_access_token,omitempty"
  ; fld "RegistrationClientURI" (EName "string") "registration_client_uri,omitempty"
  ; fld "ClaimsRedirectURIs" (EArray None (EName "string")) "claims_redirect_uris,omitempty"
  ; fld "NFVTokenSignedResponseAlg" (EName "string") "nfv_token_signed_response_alg,omitempty"
  ; fld "NFVTokenEncryptedResponseAlg" (EName "string") "nfv_token_encrypted_response_alg,omitempty"
  ; fld "NFVTokenEncryptedResponseEnc" (EName "string") "nfv_token_encrypted_response_enc,omitempty"
  ; fld "TLSClientCertificateBoundAccessTokens" (EName "bool") "tls_client_certificate_bound_access_tokens,omitempty"
  ; fld "TLSClientAuthSubjectDN" (EName "string") "tls_client_auth_subject_dn,omitempty"
  ; fld "TLSClientAuthSANDNS" (EName "string") "tls_client_auth_san_dns,omitempty"
  ; fld "TLSClientAuthSANURI" (EName "string") "tls_client_auth_san_uri,omitempty"
  ; fld "TLSClientAuthSANIP" (EName "string") "tls_client_auth_san_ip,omitempty"
  ; fld "TLSClientAuthSANEMAIL" (EName "string") "tls_client_auth_san_email,omitempty"
  ; fld "RequireSignedRequestObject" (EName "bool") "require_signed_request_object,omitempty"
  ; fld "RequirePushedAuthorizationRequests" (EName "bool") "require_pushed_authorization_requests,omitempty"
  ; fld "IntrospectionSignedResponseAlg" (EName "string") "introspection_signed_response_alg,omitempty"
  ; fld "IntrospectionEncryptedResponseAlg" (EName "string") "introspection_encrypted_response_alg,omitempty"
  ; fld "IntrospectionEncryptedResponseEnc" (EName "string") "introspection_encrypted_response_enc,omitempty"
  ; fld "FrontchannelLogoutURI" (EName "string") "frontchannel_logout_uri,omitempty"
  ; fld "FrontchannelLogoutSessionRequired" (EName "bool") "frontchannel_logout_session_required,omitempty"
  ; fld "BackchannelLogoutURI" (EName "string") "backchannel_logout_uri,omitempty"
  ; fld "BackchannelLogoutSessionRequired" (EName "bool") "backchannel_logout_session_required,omitempty"
  ; fld "PostLogoutRedirectURIs" (EArray None (EName "string")) "post_logout_redirect_uris,omitempty"
  ; fld "AuthorizationDetailsTypes" (EArray None (EName "string")) "authorization_details_types,omitempty"
  ; fld "ClientRegistrationTypes" (EArray None (EName "string")) "client_registration_types"
  ; fld "Extra" (EMap (EName "string") (EName "any")) "-" ].
(** metadata_input.go:89-161 *)
Definition in_op : list fdecl :=
  [ fld "Issuer" (EName "string") "issuer"
  ; fld "AuthorizationEndpoint" (EName "string") "authorization_endpoint"
  ; fld "TokenEndpoint" (EName "string") "token_endpoint"
  ; fld "UserinfoEndpoint" (EName "string") "userinfo_endpoint,omitempty"
  ; fld "RegistrationEndpoint" (EName "string") "registration_endpoint,omitempty"
  ; fld "ScopesSupported" (EArray None (EName "string")) "scopes_supported,omitempty"
  ; fld "ResponseTypesSupported" (EArray None (EName "string")) "response_types_supported"
  ; fld "ResponseModesSupported" (EArray None (EName "string")) "response_modes_supported,omitempty"
  ; fld "GrantTypesSupported" (EArray None (EName "string")) "grant_types_supported,omitempty"
  ; fld "ACRValuesSupported" (EArray None (EName "string")) "acr_values_supported,omitempty"
  ; fld "SubjectTypesSupported" (EArray None (EName "string")) "subject_types_supported"
  ; fld "IDTokenSignedResponseAlgValuesSupported" (EArray None (EName "string")) "id_token_signed_response_alg_values_supported,omitempty"
  ; fld "IDTokenEncryptedResponseAlgValuesSupported" (EArray None (EName "string")) "id_token_encrypted_response_alg_values_supported,omitempty"
  ; fld "IDTokenEncryptedResponseEncValuesSupported" (EArray None (EName "string")) "id_token_encrypted_response_enc_values_supported,omitempty"
  ; fld "UserinfoSignedResponseAlgValuesSupported" (EArray None (EName "string")) "userinfo_signed_response_alg_values_supported,omitempty"
  ; fld "UserinfoEncryptedResponseAlgValuesSupported" (EArray None (EName "string")) "userinfo_encrypted_response_alg_values_supported,omitempty"
  ; fld "UserinfoEncryptedResponseEncValuesSupported" (EArray None (EName "string")) "userinfo_encrypted_response_enc_values_supported,omitempty"
  ; fld "RequestSignedResponseAlgValuesSupported" (EArray None (EName "string")) "request_signed_response_alg_values_supported,omitempty"
  ; fld "RequestEncryptedResponseAlgValuesSupported" (EArray None (EName "string")) "request_encrypted_response_alg_values_supported,omitempty"
  ; fld "RequestEncryptedResponseEncValuesSupported" (EArray None (EName "string")) "request_encrypted_response_enc_values_supported,omitempty"
  ; fld "TokenEndpointAuthMethodsSupported" (EArray None (EName "string")) "token_endpoint_auth_methods_supported,omitempty"
  ; fld "TokenEndpointAuthSigningAlgValuesSupported" (EArray None (EName "string")) "token_endpoint_auth_signing_alg_values_supported,omitempty"
  ; fld "DisplayValuesSupported" (EArray None (EName "string")) "display_values_supported,omitempty"
  ; fld "ClaimsSupported" (EArray None (EName "string")) "claims_supported,omitempty"
  ; fld "ServiceDocumentation" (EName "string") "service_documentation,omitempty"
  ; fld "ClaimsLocalesSupported" (EArray None (EName "string")) "claims_locales_supported,omitempty"
  ; fld "UILocalesSupported" (EArray None (EName "string")) "ui_locales_supported,omitempty"
  ; fld "ClaimsParameterSupported" (EName "bool") "claims_parameter_supported,omitempty"
  ; fld "RequestParameterSupported" (EName "bool") "request_parameter_supported,omitempty"
  ; fld "RequestURIParameterSupported" (EName "bool") "request_uri_parameter_supported,omitempty"
  ; fld "RequireRequestURIRegistration" (EName "bool") "require_request_uri_registration,omitempty"
  ; fld "OPPolicyURI" (EName "string") "op_policy_uri,omitempty"
  ; fld "OPTOSURI" (EName "string") "op_tos_uri,omitempty"
  ; fld "RevocationEndpoint" (EName "string") "revocation_endpoint,omitempty"
  ; fld "RevocationEndpointAuthMethodsSupported" (EArray None (EName "string")) "revocation_endpoint_auth_methods_supported,omitempty"
  ; fld "RevocationEndpointAuthSigningAlgValuesSupported" (EArray None (EName "string")) "revocation_endpoint_auth_signing_alg_values_supported,omitempty"
  ; fld "IntrospectionEndpoint" (EName "string") "introspection_endpoint,omitempty"
  ; fld "IntrospectionEndpointAuthMethodsSupported" (EArray None (EName "string")) "introspection_endpoint_auth_methods_supported,omitempty"
  ; fld "IntrospectionEndpointAuthSigningAlgValuesSupported" (EArray None (EName "string")) "introspection_endpoint_auth_signing_alg_values_supported,omitempty"
  ; fld "IntrospectionSigningAlgValuesSupported" (EArray None (EName "string")) "introspection_signing_alg_values_supported,omitempty"
  ; fld "IntrospectionEncryptionAlgValuesSupported" (EArray None (EName "string")) "introspection_encryption_alg_values_supported,omitempty"
  ; fld "IntrospectionEncryptionEncValuesSupported" (EArray None (EName "string")) "introspection_encryption_enc_values_supported,omitempty"
  ; fld "CodeChallengeMethodsSupported" (EArray None (EName "string")) "code_challenge_methods_supported,omitempty"
  ; fld "SignedMetadata" (EName "string") "signed_metadata,omitempty"
  ; fld "DeviceAuthorizationEndpoint" (EName "string") "device_authorization_endpoint,omitempty"
  ; fld "TLSClientCertificateBoundAccessTokens" (EName "bool") "tls_client_certificate_bound_access_tokens,omitempty"
  ; fld "MTLSEndpointAliases" (EMap (EName "string") (EName "string")) "mtls_endpoint_aliases,omitempty"
  ; fld "NFVTokenSigningAlgValuesSupported" (EArray None (EName "string")) "nfv_token_signing_alg_values_supported,omitempty"
  ; fld "NFVTokenEncryptionAlgValuesSupported" (EArray None (EName "string")) "nfv_token_encryption_alg_values_supported,omitempty"
  ; fld "NFVTokenEncryptionEncValuesSupported" (EArray None (EName "string")) "nfv_token_encryption_enc_values_supported,omitempty"
  ; fld "RequireSignedRequestObject" (EName "bool") "require_signed_request_object,omitempty"
  ; fld "PushedAuthorizationRequestEndpoint" (EName "string") "pushed_authorization_request_endpoint,omitempty"
  ; fld "RequirePushedAuthorizationRequests" (EName "bool") "require_pushed_authorization_requests,omitempty"
  ; fld "AuthorizationResponseIssParameterSupported" (EName "bool") "authorization_response_iss_parameter_supported,omitempty"
  ; fld "CheckSessionIFrame" (EName "string") "check_session_iframe,omitempty"
  ; fld "FrontchannelLogoutSupported" (EName "bool") "frontchannel_logout_supported,omitempty"
  ; fld "BackchannelLogoutSupported" (EName "bool") "backchannel_logout_supported,omitempty"
  ; fld "BackchannelLogoutSessionSupported" (EName "bool") "backchannel_logout_session_supported,omitempty"
  ; fld "EndSessionEndpoint" (EName "string") "end_session_endpoint,omitempty"
  ; fld "BackchannelTokenDeliveryModesSupported" (EArray None (EName "string")) "backchannel_token_delivery_modes_supported,omitempty"
  ; fld "BackchannelAuthenticationEndpoint" (EName "string") "backchannel_authentication_endpoint,omitempty"
  ; fld "BackchannelAuthenticationRequestSigningAlgValuesSupported" (EArray None (EName "string")) "backchannel_authentication_request_signing_alg_values_supported,omitempty"
  ; fld "BackchannelUserCodeParameterSupported" (EName "bool") "backchannel_user_code_parameter_supported,omitempty"
  ; fld "AuthorizationDetailsTypesSupported" (EArray None (EName "string")) "authorization_details_types_supported,omitempty"
  ; fld "ClientRegistrationTypesSupported" (EArray None (EName "string")) "client_registration_types_supported"
  ; fld "FederationRegistrationEndpoint" (EName "string") "federation_registration_endpoint,omitempty"
  ; fld "RequestAuthenticationMethodsSupported" (EMap (EName "string") (EArray None (EName "string"))) "request_authentication_methods_supported,omitempty"
  ; fld "RequestAuthenticationSigningAlgValuesSupported" (EArray None (EName "string")) "request_authentication_signing_alg_values_supported,omitempty"
  ; fld "Extra" (EMap (EName "string") (EName "any")) "-" ].
(** metadata_input.go:163-177 *)
Definition in_pr : list fdecl :=
  [ fld "Resource" (EName "string") "resource,omitempty"
  ; fld "AuthorizationServers" (EArray None (EName "string")) "authorization_servers,omitempty"
  ; fld "ScopesSupported" (EArray None (EName "string")) "scopes_supported,omitempty"
  ; fld "BearerMethodsSupported" (EArray None (EName "string")) "bearer_methods_supported,omitempty"
  ; fld "ResourceSigningAlgValuesSupported" (EArray None (EName "string")) "resource_signing_alg_values_supported,omitempty"
  ; fld "ResourceEncryptionAlgValuesSupported" (EArray None (EName "string")) "resource_encryption_alg_values_supported"
  ; fld "ResourceEncryptionEncValuesSupported" (EArray None (EName "string")) "resource_encryption_enc_values_supported"
  ; fld "ResourceName" (EName "string") "resource_name,omitempty"
  ; fld "ResourceDocumentation" (EName "string") "resource_documentation,omitempty"
  ; fld "ResourcePolicyURI" (EName "string") "resource_policy_uri,omitempty"
  ; fld "ResourceTOSURI" (EName "string") "resource_tos_uri,omitempty"
  ; fld "Extra" (EMap (EName "string") (EName "any")) "-" ].
(** metadata_input.go:179-189 *)
Definition in_fe : list fdecl :=
  [ fld "FederationFetchEndpoint" (EName "string") "federation_fetch_endpoint,omitempty"
  ; fld "FederationListEndpoint" (EName "string") "federation_list_endpoint,omitempty"
  ; fld "FederationResolveEndpoint" (EName "string") "federation_resolve_endpoint,omitempty"
  ; fld "FederationTrustMarkStatusEndpoint" (EName "string") "federation_trust_mark_status_endpoint,omitempty"
  ; fld "FederationTrustMarkListEndpoint" (EName "string") "federation_trust_mark_list_endpoint,omitempty"
  ; fld "FederationTrustMarkEndpoint" (EName "string") "federation_trust_mark_endpoint,omitempty"
  ; fld "FederationHistoricalLKeysEndpoint" (EName "string") "federation_historical_keys_endpoint,omitempty"
  ; fld "Extra" (EMap (EName "string") (EName "any")) "-" ].
(** metadata_input.go *)
Definition repo_src : gosrc := GoSrc "oidfed"
  [TDecl "commonMetadata" (Some in_common); TDecl "openIDRelyingPartyMetadata" (Some in_rp); TDecl "openIDProviderMetadata" (Some in_op); TDecl "oAuthProtectedResourceMetadata" (Some in_pr); TDecl "federationEntityMetadata" (Some in_fe)].

(** The tables of Schema.v as rows. *)
Fixpoint gty_text (t : gty) : string :=
  match t with
  | TAny => "any" | TBool => "bool" | TInt => "int64" | TFloat => "float64" | TStr => "string" | TJwks => "*jwks.JWKS"
  | TMap t' => "map[string]" ++ gty_text t' | TSlice t' => "[]" ++ gty_text t'
  end.
Definition schema_row (f : frow) : row :=
  Row (fr_name f) (gty_text (fr_ty f)) (Some (jtag (fr_tag f ++ (if fr_omitempty f then ",omitempty" else "")))).

Lemma repo_common : Forall (fun d => match td_struct d with Some fs => all_common fs | None => True end) (gs_types repo_src).
Proof.
  assert (H : forall fs, forallb (fun f => (fix ok e := match e with EName _ | EQual _ _ => true | EStar e' => ok e' | EArray None e' => ok e' | EMap k v => (ok k && ok v)%bool | _ => false end) (fd_type f)) fs = true -> all_common fs).
  { intros fs H f I. rewrite forallb_forall in H. specialize (H f I). clear I. cbv beta in H. induction (fd_type f) as [| |e IH|[|] e IH|k IHk v IHv|]; cbn [common_syntax]; auto; try discriminate.
    apply andb_prop in H. destruct H. auto. }
  repeat constructor; cbn [td_struct]; apply H; vm_compute; reflexivity.
Qed.

Lemma c163_case : all_common in_fe /\ all_common in_op /\ all_common in_common /\
  fst (combined "FederationEntityMetadata" in_fe in_common) = map schema_row fe_schema /\
  fst (combined "OpenIDRelyingPartyMetadata" in_rp in_common) = map schema_row rp_schema /\
  fst (combined "OpenIDProviderMetadata" in_op in_common) = map schema_row op_schema /\
  fst (combined "OAuthProtectedResourceMetadata" in_pr in_common) = map schema_row pr_schema /\
  In (Row "DisplayName" "*string" (Some (jtag "display_name,omitempty"))) (snd (combined "FederationEntityMetadata" in_fe in_common)).
Proof.
  pose proof repo_common as R. unfold repo_src in R. cbn [gs_types] in R. rewrite !Forall_cons_iff in R. cbn [td_struct] in R. destruct R as (A & B & C & D & E & _).
  split; [exact E|]. split; [exact C|]. split; [exact A|]. repeat split; try (vm_compute; reflexivity). vm_compute. tauto.
Qed.

(** Fixed-size arrays become slices, other types vanish. *)
Lemma c163_witness : exists name own common n t tag,
  (exists e, t = go_text e /\ declares own n (e, tag)) /\ ~ In (Row n t tag) (fst (combined name own common)).
Proof.
  exists "X", [fld "Digest" (EArray (Some "32") (EName "byte")) "digest"], [], "Digest", "[32]byte", (Some (jtag "digest")).
  split.
  - exists (EArray (Some "32") (EName "byte")). split; [reflexivity|]. exists [], []. split; [reflexivity|intros []].
  - intros [H|[]]. discriminate H.
Qed.
Lemma c163_vanish : combined "X" [fld "Hook" (EOther "interface{ Run() }") "hook"; FDecl [] (EName "embedded") None] [] =
  ([Row "Hook" "" (Some (jtag "hook"))], [Row "Hook" "" (Some (jtag "hook"))]).
Proof. vm_compute. reflexivity. Qed.

(** A field of a struct type of another package: the companion's field cannot be nil. *)
Definition go_kinds (n : string) : kind := if String.eqb n "any" then KNilable else KPlain.
Lemma c163_read_witness : exists kinds e, common_syntax e /\ from_pointer kinds (companion e) e = Panic.
Proof. exists go_kinds, (EQual "jwks" "JWKS"). split; [exact I|vm_compute; reflexivity]. Qed.
Lemma c163_read_case : forall d fs f, In d (gs_types repo_src) -> td_struct d = Some fs -> In f fs ->
  common_syntax (fd_type f) /\ from_pointer go_kinds (companion (fd_type f)) (fd_type f) = Ok tt.
Proof.
  intros d fs f I E J. split.
  - pose proof repo_common as R. rewrite Forall_forall in R. specialize (R d I). rewrite E in R. now apply R.
  - assert (A : forallb (fun d => match td_struct d with Some fs => forallb (fun f => match from_pointer go_kinds (companion (fd_type f)) (fd_type f) with Ok _ => true | _ => false end) fs | None => true end) (gs_types repo_src) = true) by (vm_compute; reflexivity).
    rewrite forallb_forall in A. specialize (A d I). rewrite E in A. rewrite forallb_forall in A. specialize (A f J). cbv beta in A.
    destruct (from_pointer go_kinds (companion (fd_type f)) (fd_type f)) as [[]| |]; [reflexivity|discriminate|discriminate].
Qed.

(** A claim declared twice under different names: encoding/json ignores both fields. *)
Lemma c163_tags_witness : exists name own common,
  NoDup (map (fun x => snd (snd x)) (fields_of own)) /\ NoDup (map (fun x => snd (snd x)) (fields_of common)) /\
  ~ NoDup (map rw_tag (fst (combined name own common))).
Proof.
  exists "X", [fld "Logo" (EName "string") "logo_uri,omitempty"], [fld "LogoURI" (EName "string") "logo_uri,omitempty"].
  split; [|split]; [repeat constructor; intros []|repeat constructor; intros []|]. vm_compute. intros D. inversion D as [|? ? N _]; subst. apply N. now left.
Qed.
Lemma no_twins l : forallb (fun x : string * (texpr * option string) => forallb (fun y => (negb (match snd (snd x), snd (snd y) with Some a, Some b => String.eqb a b | _, _ => false end) || String.eqb (fst x) (fst y))%bool) l) l = true ->
  forall n n' e e' tag, In (n, (e, Some tag)) l -> In (n', (e', Some tag)) l -> n = n'.
Proof.
  intros H n n' e e' tag I J. rewrite forallb_forall in H. specialize (H _ I). rewrite forallb_forall in H. specialize (H _ J). cbn [fst snd] in H.
  rewrite String.eqb_refl in H. now apply String.eqb_eq.
Qed.
Lemma c163_tags_case : (forall n n' e e' tag, In (n, (e, Some tag)) (fields_of in_op ++ fields_of in_common) -> In (n', (e', Some tag)) (fields_of in_op ++ fields_of in_common) -> n = n') /\
  (forall n n' e e' tag, In (n, (e, Some tag)) (fields_of in_rp ++ fields_of in_common) -> In (n', (e', Some tag)) (fields_of in_rp ++ fields_of in_common) -> n = n') /\
  (forall n n' e e' tag, In (n, (e, Some tag)) (fields_of in_pr ++ fields_of in_common) -> In (n', (e', Some tag)) (fields_of in_pr ++ fields_of in_common) -> n = n') /\
  (forall n n' e e' tag, In (n, (e, Some tag)) (fields_of in_fe ++ fields_of in_common) -> In (n', (e', Some tag)) (fields_of in_fe ++ fields_of in_common) -> n = n').
Proof. repeat split; apply no_twins; vm_compute; reflexivity. Qed.

(** *** C164 *)
Lemma c164_case : exists f, some_order (fun m => m) /\ generate (fun m => m) repo_src = Ok f /\
  map gt_name (gf_types f) = ["OpenIDRelyingPartyMetadata"; "OpenIDProviderMetadata"; "OAuthProtectedResourceMetadata"; "FederationEntityMetadata"] /\
  map gt_entity (gf_types f) = ["openid_relying_party"; "openid_provider"; "oauth_resource"; "federation_entity"] /\
  gs_package repo_src <> "pkg".
Proof. eexists. split; [intros m; apply Permutation_refl|]. split; [vm_compute; reflexivity|]. repeat split; try (vm_compute; reflexivity). discriminate. Qed.
Lemma c164_witness : exists src o1 o2 f1 f2, some_order o1 /\ some_order o2 /\ generate o1 src = Ok f1 /\ generate o2 src = Ok f2 /\ f1 <> f2.
Proof.
  exists repo_src, (fun m => m), (@rev _). eexists _, _. split; [intros m; apply Permutation_refl|]. split; [intros m; apply Permutation_rev|].
  split; [vm_compute; reflexivity|]. split; [vm_compute; reflexivity|]. discriminate.
Qed.

Lemma c164_refuses_case : capital "openIDProviderMetadata" = "OpenIDProviderMetadata" /\ capital "zone" = "Zone" /\ capital "_x" = "_x" /\
  (exists fs, last_struct repo_src "commonMetadata" fs) /\
  (forall fs, ~ last_struct (GoSrc "pkg" [TDecl "x" (Some [])]) "commonMetadata" fs).
Proof.
  split; [reflexivity|]. split; [reflexivity|]. split; [reflexivity|]. split.
  - destruct (generate (fun m => m) repo_src) as [f| |] eqn:G; [|vm_compute in G; discriminate|vm_compute in G; discriminate].
    destruct (gen_written (fun m => m) repo_src f) as (c & L & _); [intros m; apply Permutation_refl|exact G|now exists c].
  - apply (proj1 (gen_refuses (fun m => m) (GoSrc "pkg" [TDecl "x" (Some [])]))). vm_compute. reflexivity.
Qed.
