(** The unit tests of the repository for JSON and request objects,
    run on the model: they are tests of the model, not proofs. metadata_test.go,
    entitystatement_test.go, sliceorsinglevalue_test.go, authcode_test.go. The tables are generated from the test files. JSON objects
    are compared after sorting their members (the output of json.Marshal is sorted there).
    The MessagePack test and the type AnotherEntityMetadata are left out. *)
From Coq Require Import QArith.
From Verif Require Import Base GoVal Policy Schema Metadata Chain Resolver FloatTime Json TrustMark Statement Encode SpecEncode WitnessStatement WitnessEncode Refresher Leaf Lookup MockNet.
From Verif Require Import SpecEncode GoVal.
Local Open Scope nat_scope.
Local Open Scope string_scope.

Fixpoint insert_member (k : string) (v : json) (l : list (string * json)) : list (string * json) :=
  match l with
  | [] => [(k, v)]
  | (k', v') :: r => if String.leb k k' then (k, v) :: l else (k', v') :: insert_member k v r
  end.
Fixpoint sorted_json (x : json) : json :=
  match x with
  | JArr l => JArr (map sorted_json l)
  | JObj o => JObj ((fix go (o : list (string * json)) := match o with [] => [] | (k, v) :: r => insert_member k (sorted_json v) (go r) end) o)
  | JNum r => JNum (Qred r)
  | x => x
  end.

(** A Go struct with the given values, Extra and wasSet. *)
Definition object (sch : list frow) (values extra : smap gval) (set : list string) : emeta :=
  EMeta (map (fun fv => if String.eqb (fr_tag (fst fv)) "-" then (fst fv, VMap TAny (match extra with [] => true | _ => false end) extra) else fv)
             (em_fields (build sch values extra))) set.
(** Equal up to the order of wasSet. *)
Definition same_object (a b : option emeta) : Prop :=
  match a, b with
  | None, None => True
  | Some a, Some b => em_fields a = em_fields b /\ (forallb (fun x => mem x (em_set b)) (em_set a) && forallb (fun x => mem x (em_set a)) (em_set b))%bool = true
  | _, _ => False
  end.
Definition same_metadata (a b : metadata) : Prop :=
  same_object (md_op a) (md_op b) /\ same_object (md_rp a) (md_rp b) /\ same_object (md_as a) (md_as b) /\
  same_object (md_oc a) (md_oc b) /\ same_object (md_pr a) (md_pr b) /\ same_object (md_fe a) (md_fe b) /\ md_extra a = md_extra b.
Definition marshals (t : json * metadata) : Prop := sorted_json (enc_metadata (snd t)) = sorted_json (fst t).
Definition unmarshals (t : json * metadata) : Prop := match dec_metadata (fst t) with Ok m => same_metadata m (snd t) | _ => False end.

(** metadataMarshalData: metadata_test.go:12-293, without "nil" *)
Definition md_empty : json * metadata :=
  (JObj [],
   Metadata None None None None None None []).
Definition md_only_federation : json * metadata :=
  (JObj [("federation_entity", JObj [("contacts", JArr [JStr "contact@federation.endpoint"]); ("federation_fetch_endpoint", JStr "https://federation.endpoint/fetch"); ("federation_list_endpoint", JStr "https://federation.endpoint/list"); ("federation_resolve_endpoint", JStr "https://federation.endpoint/resolve"); ("federation_trust_mark_status_endpoint", JStr "https://federation.endpoint/trustmarks"); ("organization_name", JStr "Test Organization")])],
   Metadata None None None None None (Some (object fe_schema [("contacts", texts ["contact@federation.endpoint"]); ("federation_fetch_endpoint", VStr "https://federation.endpoint/fetch"); ("federation_list_endpoint", VStr "https://federation.endpoint/list"); ("federation_resolve_endpoint", VStr "https://federation.endpoint/resolve"); ("federation_trust_mark_status_endpoint", VStr "https://federation.endpoint/trustmarks"); ("organization_name", VStr "Test Organization")] [] ["FederationFetchEndpoint"; "FederationListEndpoint"; "FederationResolveEndpoint"; "FederationTrustMarkStatusEndpoint"; "OrganizationName"; "Contacts"])) []).
Definition md_federation_op : json * metadata :=
  (JObj [("federation_entity", JObj [("contacts", JArr [JStr "contact@op.example.com"]); ("organization_name", JStr "Test OP Org")]); ("openid_provider", JObj [("authorization_endpoint", JStr "https://op.example.com/authorization"); ("client_registration_types_supported", JArr [JStr "automatic"]); ("code_challenge_methods_supported", JArr [JStr "S256"]); ("grant_types_supported", JArr [JStr "authorization_code"; JStr "refresh_token"]); ("id_token_signed_response_alg_values_supported", JArr [JStr "ES256"; JStr "ES512"]); ("introspection_endpoint", JStr "https://op.example.com/introspect"); ("issuer", JStr "https://op.example.com"); ("jwks_uri", JStr "https://op.example.com/jwks"); ("organization_name", JStr "Test OP Org"); ("request_signed_response_alg_values_supported", JArr [JStr "ES256"; JStr "ES512"]); ("response_types_supported", JArr [JStr "code"]); ("revocation_endpoint", JStr "https://op.example.com/revoke"); ("scopes_supported", JArr [JStr "openid"; JStr "profile"; JStr "email"; JStr "offline_access"]); ("subject_types_supported", JNull); ("token_endpoint", JStr "https://op.example.com/token"); ("userinfo_endpoint", JStr "https://op.example.com/userinfo"); ("userinfo_signed_response_alg_values_supported", JArr [JStr "ES256"; JStr "ES512"])])],
   Metadata (Some (object op_schema [("authorization_endpoint", VStr "https://op.example.com/authorization"); ("client_registration_types_supported", texts ["automatic"]); ("code_challenge_methods_supported", texts ["S256"]); ("grant_types_supported", texts ["authorization_code"; "refresh_token"]); ("id_token_signed_response_alg_values_supported", texts ["ES256"; "ES512"]); ("introspection_endpoint", VStr "https://op.example.com/introspect"); ("issuer", VStr "https://op.example.com"); ("jwks_uri", VStr "https://op.example.com/jwks"); ("organization_name", VStr "Test OP Org"); ("request_signed_response_alg_values_supported", texts ["ES256"; "ES512"]); ("response_types_supported", texts ["code"]); ("revocation_endpoint", VStr "https://op.example.com/revoke"); ("scopes_supported", texts ["openid"; "profile"; "email"; "offline_access"]); ("token_endpoint", VStr "https://op.example.com/token"); ("userinfo_endpoint", VStr "https://op.example.com/userinfo"); ("userinfo_signed_response_alg_values_supported", texts ["ES256"; "ES512"])] [] ["Issuer"; "AuthorizationEndpoint"; "TokenEndpoint"; "UserinfoEndpoint"; "ScopesSupported"; "ResponseTypesSupported"; "GrantTypesSupported"; "IDTokenSignedResponseAlgValuesSupported"; "UserinfoSignedResponseAlgValuesSupported"; "RequestSignedResponseAlgValuesSupported"; "RevocationEndpoint"; "IntrospectionEndpoint"; "CodeChallengeMethodsSupported"; "ClientRegistrationTypesSupported"; "OrganizationName"; "JWKSURI"])) None None None None (Some (object fe_schema [("contacts", texts ["contact@op.example.com"]); ("organization_name", VStr "Test OP Org")] [] ["OrganizationName"; "Contacts"])) []).
Definition md_federation_rp : json * metadata :=
  (JObj [("federation_entity", JObj [("contacts", JArr [JStr "contact@rp.example.org"]); ("organization_name", JStr "test rp org")]); ("openid_relying_party", JObj [("application_type", JStr "web"); ("client_name", JStr "test rp"); ("client_registration_types", JArr [JStr "automatic"]); ("client_uri", JStr "https://rp.example.org"); ("contacts", JArr [JStr "contact@rp.example.org"]); ("grant_types", JArr [JStr "authorization_code"]); ("jwks_uri", JStr "https://rp.example.org/jwks"); ("organization_name", JStr "test rp org"); ("policy_uri", JStr "https://rp.example.org/policy"); ("redirect_uris", JArr [JStr "https://rp.example.org/redirect"]); ("response_types", JArr [JStr "code"]); ("scope", JStr "openid profile email"); ("tos_uri", JStr "https://rp.example.org/tos")])],
   Metadata None (Some (object rp_schema [("application_type", VStr "web"); ("client_name", VStr "test rp"); ("client_registration_types", texts ["automatic"]); ("client_uri", VStr "https://rp.example.org"); ("contacts", texts ["contact@rp.example.org"]); ("grant_types", texts ["authorization_code"]); ("jwks_uri", VStr "https://rp.example.org/jwks"); ("organization_name", VStr "test rp org"); ("policy_uri", VStr "https://rp.example.org/policy"); ("redirect_uris", texts ["https://rp.example.org/redirect"]); ("response_types", texts ["code"]); ("scope", VStr "openid profile email"); ("tos_uri", VStr "https://rp.example.org/tos")] [] ["Scope"; "RedirectURIS"; "ResponseTypes"; "GrantTypes"; "ApplicationType"; "Contacts"; "ClientName"; "ClientURI"; "PolicyURI"; "TOSURI"; "JWKSURI"; "OrganizationName"; "ClientRegistrationTypes"])) None None None (Some (object fe_schema [("contacts", texts ["contact@rp.example.org"]); ("organization_name", VStr "test rp org")] [] ["OrganizationName"; "Contacts"])) []).
Definition md_op_extra_fields : json * metadata :=
  (JObj [("openid_provider", JObj [("authorization_endpoint", JStr "https://op.example.com/auth"); ("client_registration_types_supported", JNull); ("foo", JStr "bar"); ("issuer", JStr "https://op.example.com"); ("response_types_supported", JNull); ("slice", JArr [JStr "two"; JStr "values"]); ("subject_types_supported", JNull); ("token_endpoint", JStr "https://op.example.com/token")])],
   Metadata (Some (object op_schema [("authorization_endpoint", VStr "https://op.example.com/auth"); ("issuer", VStr "https://op.example.com"); ("token_endpoint", VStr "https://op.example.com/token")] [("foo", VStr "bar"); ("slice", VSlice TAny false [VStr "two"; VStr "values"])] ["Issuer"; "AuthorizationEndpoint"; "TokenEndpoint"; "Extra"; "foo"; "slice"])) None None None None None []).
Definition md_rp_extra_fields : json * metadata :=
  (JObj [("openid_relying_party", JObj [("client_registration_types", JNull); ("foo", JStr "bar"); ("slice", JArr [JStr "two"; JStr "values"])])],
   Metadata None (Some (object rp_schema [] [("foo", VStr "bar"); ("slice", VSlice TAny false [VStr "two"; VStr "values"])] ["Extra"; "foo"; "slice"])) None None None None []).
Definition md_as_extra_fields : json * metadata :=
  (JObj [("oauth_authorization_server", JObj [("authorization_endpoint", JStr "https://as.example.com/auth"); ("client_registration_types_supported", JNull); ("foo", JStr "bar"); ("issuer", JStr "https://as.example.com"); ("response_types_supported", JNull); ("slice", JArr [JStr "two"; JStr "values"]); ("subject_types_supported", JNull); ("token_endpoint", JStr "https://as.example.com/token")])],
   Metadata None None (Some (object op_schema [("authorization_endpoint", VStr "https://as.example.com/auth"); ("issuer", VStr "https://as.example.com"); ("token_endpoint", VStr "https://as.example.com/token")] [("foo", VStr "bar"); ("slice", VSlice TAny false [VStr "two"; VStr "values"])] ["Issuer"; "AuthorizationEndpoint"; "TokenEndpoint"; "Extra"; "foo"; "slice"])) None None None []).
Definition md_client_extra_fields : json * metadata :=
  (JObj [("oauth_client", JObj [("client_registration_types", JNull); ("foo", JStr "bar"); ("slice", JArr [JStr "two"; JStr "values"])])],
   Metadata None None None (Some (object rp_schema [] [("foo", VStr "bar"); ("slice", VSlice TAny false [VStr "two"; VStr "values"])] ["Extra"; "foo"; "slice"])) None None []).
Definition md_pr_extra_fields : json * metadata :=
  (JObj [("oauth_resource", JObj [("foo", JStr "bar"); ("resource_encryption_alg_values_supported", JNull); ("resource_encryption_enc_values_supported", JNull); ("slice", JArr [JStr "two"; JStr "values"])])],
   Metadata None None None None (Some (object pr_schema [] [("foo", VStr "bar"); ("slice", VSlice TAny false [VStr "two"; VStr "values"])] ["Extra"; "foo"; "slice"])) None []).
Definition md_federation_extra_fields : json * metadata :=
  (JObj [("federation_entity", JObj [("foo", JStr "bar"); ("slice", JArr [JStr "two"; JStr "values"])])],
   Metadata None None None None None (Some (object fe_schema [] [("foo", VStr "bar"); ("slice", VSlice TAny false [VStr "two"; VStr "values"])] ["Extra"; "foo"; "slice"])) []).
Definition md_extra_metadata : json * metadata :=
  (JObj [("another-entity", JObj [("a-key", JStr "a-value")]); ("federation_entity", JObj [("federation_fetch_endpoint", JStr "https://federation.endpoint/fetch")])],
   Metadata None None None None None (Some (object fe_schema [("federation_fetch_endpoint", VStr "https://federation.endpoint/fetch")] [] ["FederationFetchEndpoint"])) [("another-entity", VMap TAny false [("a-key", VStr "a-value")])]).
(** TestMetadata_MarshalJSON, TestMetadata_UnmarshalJSON: metadata_test.go:295-333 *)
Definition metadata_cases := [md_empty; md_only_federation; md_federation_op; md_federation_rp; md_op_extra_fields; md_rp_extra_fields; md_as_extra_fields; md_client_extra_fields; md_pr_extra_fields; md_federation_extra_fields; md_extra_metadata].
Example TestMetadata_MarshalJSON : Forall marshals metadata_cases.
Proof. unfold metadata_cases. repeat (apply Forall_cons; [vm_compute; reflexivity|]). apply Forall_nil. Qed.
Example TestMetadata_UnmarshalJSON : Forall unmarshals metadata_cases.
Proof. unfold metadata_cases. repeat (apply Forall_cons; [vm_compute; repeat split|]). apply Forall_nil. Qed.
(** TestMetadata_FindEntityMetadata: metadata_test.go:335-end *)
Example TestMetadata_FindEntityMetadata :
  match dec_metadata (fst md_extra_metadata) with
  | Ok m => map (fun t => fst (find_metadata (fun _ (u : unit) => (true, u)) m true t tt)) ["federation_entity"; "another-entity"; "openid_provider"; "no-such-metadata"]
            = [true; true; false; false]
  | _ => False
  end.
Proof. vm_compute. reflexivity. Qed.

(** entitystatementMarshalData: entitystatement_test.go:26-109 *)
Definition es_empty : json := JObj [("exp", JNum 0); ("iat", JNum 0); ("iss", JStr ""); ("jwks", JNull); ("sub", JStr "")].
Definition es_normal : json := JObj [("aud", JStr "aud"); ("authority_hints", JArr [JStr "hint1"; JStr "hint2"]); ("constraints", JObj [("max_path_length", JNum 2); ("naming_constraints", JObj [("permitted", JArr [JStr "foo"])]); ("allowed_entity_types", JArr [JStr "openid_provider"])]); ("crit", JArr [JStr "jti"]); ("exp", JNum 200); ("iat", JNum 100); ("iss", JStr "issuer"); ("jwks", JNull); ("metadata", JObj [("federation_entity", JObj [("organization_name", JStr "organization"); ("organization_uri", JStr "https://somewhere.com")]); ("openid_relying_party", JObj [("application_type", JStr "web"); ("client_registration_types", JArr [JStr "automatic"]); ("contacts", JArr [JStr "contact@email.com"]); ("grant_types", JArr [JStr "refresh_token"; JStr "authorization_code"]); ("id_token_signed_response_alg", JStr "ES512"); ("redirect_uris", JArr [JStr "https://redirect.to.somewher"]); ("response_types", JArr [JStr "code"]); ("scope", JStr "some scope")])]); ("metadata_policy", JObj [("federation_entity", JObj [("contacts", JObj [("add", JStr "value")])])]); ("metadata_policy_crit", JArr [JStr "remove"]); ("sub", JStr "subject")].
Definition es_normal_metadata : metadata := Metadata None (Some (object rp_schema [("application_type", VStr "web"); ("client_registration_types", texts ["automatic"]); ("contacts", texts ["contact@email.com"]); ("grant_types", texts ["refresh_token"; "authorization_code"]); ("id_token_signed_response_alg", VStr "ES512"); ("redirect_uris", texts ["https://redirect.to.somewher"]); ("response_types", texts ["code"]); ("scope", VStr "some scope")] [] ["Scope"; "RedirectURIS"; "ResponseTypes"; "GrantTypes"; "ApplicationType"; "Contacts"; "IDTokenSignedResponseAlg"; "ClientRegistrationTypes"])) None None None (Some (object fe_schema [("organization_name", VStr "organization"); ("organization_uri", VStr "https://somewhere.com")] [] ["OrganizationName"; "OrganizationURI"])) [].
Definition es_normal_object : stmt :=
  Stmt "" "issuer" "subject" (at_second 100) (at_second 200) None ["hint1"; "hint2"] (Some es_normal_metadata)
    (Some (Policies None None None None None (Some [("contacts", [("add", VStr "value")])]) []))
    (Some (Constraints (Some 2%Z) (Some (Naming (Some ["foo"]) [])) (Some ["openid_provider"]))) ["jti"] ["remove"] [] [] [].
Definition es_extra : json := JObj [("exp", JNum 200); ("extra-field", JStr "value"); ("foo", JArr [JStr "bar"]); ("iat", JNum 100); ("iss", JStr "issuer"); ("jwks", JNull); ("sub", JStr "subject")].
Definition es_extra_object : stmt := Stmt "" "issuer" "subject" (at_second 100) (at_second 200) None [] None None None [] [] [] [] [].
Definition es_extra_fields : smap json := [("extra-field", JStr "value"); ("foo", JArr [JStr "bar"])].
(** TestEntityStatementPayload_MarshalJSON: entitystatement_test.go:111-142. The zero time is
    written as 0 (unixtime/unixtime.go:45-53). *)
Example TestEntityStatementPayload_MarshalJSON :
  sorted_json (enc_statement kc_texts (StatementPayload (Stmt "" "" "" zero_time zero_time None [] None None None [] [] [] [] []) "" "" "" [])) = sorted_json es_empty /\
  sorted_json (enc_statement kc_texts (StatementPayload es_normal_object "aud" "" "" [])) = sorted_json es_normal /\
  sorted_json (enc_statement kc_texts (StatementPayload es_extra_object "" "" "" es_extra_fields)) = sorted_json es_extra.
Proof. vm_compute. repeat split. Qed.
(** TestEntityStatementPayload_UnmarshalJSON, TestEntityStatementMarshalAndUnmarshalJSON:
    entitystatement_test.go:144-228 *)
Definition same_statement (a b : stmt) : Prop :=
  with_metadata a None = with_metadata b None /\
  match st_metadata a, st_metadata b with Some m, Some m' => same_metadata m m' | None, None => True | _, _ => False end.
Definition reads (x : json) (s : stmt) : Prop := match dec_statement kc_texts "" x with Ok s' => same_statement s' s | _ => False end.
Example TestEntityStatementPayload_UnmarshalJSON : reads es_normal es_normal_object /\ reads es_extra es_extra_object.
Proof. vm_compute. repeat split. Qed.
Example TestEntityStatementMarshalAndUnmarshalJSON :
  reads (enc_statement kc_texts (StatementPayload es_normal_object "aud" "" "" [])) es_normal_object /\
  reads (enc_statement kc_texts (StatementPayload es_extra_object "" "" "" es_extra_fields)) es_extra_object.
Proof. vm_compute. repeat split. Qed.

(** TestSliceOrSingleValue_Marshal, ..._Unmarshal: sliceorsinglevalue_test.go *)
Example TestSliceOrSingleValue_Marshal :
  marshal_sos JStr None = JNull /\ marshal_sos JStr (Some ["value"]) = JStr "value" /\
  marshal_sos JStr (Some ["value"; "and"; "more"]) = JArr [JStr "value"; JStr "and"; JStr "more"].
Proof. repeat split. Qed.
Definition a_text (x : json) : option string := match x with JStr s => Some s | JNull => Some "" | _ => None end.
Example TestSliceOrSingleValue_Unmarshal :
  unmarshal_sos a_text (JStr "value") = Ok (Some ["value"]) /\
  unmarshal_sos a_text (JArr [JStr "value"; JStr "and"; JStr "more"]) = Ok (Some ["value"; "and"; "more"]).
Proof. split; reflexivity. Qed.

(** TestRequestObjectProducer_RequestObject, ..._ClientAssertion: authcode_test.go. The signer
    accepts exactly the claims the tests check for. *)
Definition checked (expected : smap string) (missing : list string) (x : json) : option string :=
  match x with
  | JObj o => if (forallb (fun kv => match lookup (fst kv) o with Some (JStr s) => String.eqb s (snd kv) | _ => false end) expected
                  && forallb (fun k => negb (has k o)) missing)%bool then Some "accepted" else None
  | _ => None
  end.
Definition signing (check : json -> option string) : oracles := Oracles 1000 (Some "uuid") check (fun s => Some s) (fun _ _ => None).
Definition rop : producer := Producer rp1 60.
Definition aud := "https://aud.example.com".
Example TestRequestObjectProducer_RequestObject :
  fst (request_object (signing (checked [("aud", aud); ("iss", rp1); ("client_id", rp1)] ["sub"; "client_secret"])) rop
         [CAny [("aud", Some (JStr aud))]] (Some 0)) = Ok "accepted" /\
  fst (request_object (signing (checked [("aud", aud); ("iss", rp1); ("client_id", rp1); ("key", "value")] ["sub"; "client_secret"])) rop
         [CAny [("aud", Some (JStr aud)); ("key", Some (JStr "value"))]] (Some 0)) = Ok "accepted".
Proof. vm_compute. split; reflexivity. Qed.
Example TestRequestObjectProducer_ClientAssertion :
  client_assertion (signing (checked [("aud", aud); ("iss", rp1); ("sub", rp1)] ["client_id"])) rop aud = Ok "accepted".
Proof. vm_compute. reflexivity. Qed.
