(** The mock federation of the repository's tests (trustchainfilter_test.go:12-184,
    mock_authority_test.go, mock_op_test.go, mock_rp_test.go, mock_proxy_test.go), published
    with the encoders of the model and read back with its decoders. The tests in
    ResolverTests.v run on it. Keys are named after the entities, a JWT is named by its issuer
    and subject; organisation names are fixed. *)
From Coq Require Import QArith.
From Verif Require Import Base GoVal Policy Schema Metadata Chain Resolver FloatTime Json TrustMark Refresher Leaf Config Jwt Statement Encode SpecEncode WitnessStatement WitnessEncode Federation Web.
From Verif Require Import SpecEncode GoVal.
Local Open Scope nat_scope.
Local Open Scope string_scope.

Definition rp1 := "https://rp1.example.com".
Definition op1 := "https://op1.example.com".
Definition op2 := "https://op2.example.com".
Definition op3 := "https://op3.example.com".
Definition proxy := "https://proxy.example.org".
Definition ia1 := "https://ia1.example.com".
Definition ia2 := "https://ia2.example.com".
Definition ta1 := "https://ta.example.com".
Definition ta2 := "https://ta.foundation.example.org".
Definition ta2_remove := "https://ta.foundation.example.org/remove".
Definition ta2_remove_crit := "https://ta.foundation.example.org/remove/crit".
Definition ta_path := "https://ta.foundation.example.org/constraints/path-len".
Definition ta_naming := "https://ta.foundation.example.org/constraints/naming".
Definition ta_types := "https://ta.foundation.example.org/constraints/entity-type".

Definition texts (l : list string) : gval := VSlice TStr false (map VStr l).
Definition fe_named : emeta := build fe_schema [("organization_name", VStr "Organization: 0")] [].
Definition rp_of (contacts : list string) (org : string) : emeta :=
  build rp_schema [("client_registration_types", texts ["automatic"]);
                   ("contacts", match contacts with [] => VSlice TStr true [] | _ => texts contacts end); ("organization_name", VStr org)] [].
Definition op_of (id : string) (scopes : list string) (org : string) : emeta :=
  build op_schema [("issuer", VStr id); ("client_registration_types_supported", texts ["automatic"]); ("scopes_supported", texts scopes);
                   ("organization_name", VStr org)] [].
Definition md_rp1 (contacts : list string) : metadata := Metadata None (Some (rp_of contacts "")) None None None (Some fe_named) [].
Definition md_of_op (id : string) (scopes : list string) : metadata := Metadata (Some (op_of id scopes "")) None None None None (Some fe_named) [].
Definition md_proxy : metadata :=
  Metadata (Some (op_of proxy ["openid"; "profile"; "email"] "Organization: 0")) (Some (rp_of [] "Organization: 0")) None None None (Some fe_named) [].
Definition md_authority (id : string) : metadata :=
  Metadata None None None None None
    (Some (build fe_schema [("organization_name", VStr "Organization 1"); ("federation_fetch_endpoint", VStr (id ++ "/fetch")); ("federation_list_endpoint", VStr (id ++ "/list"))] [])) [].

Definition on_rp (p : policy) : option policies := Some (Policies None (Some p) None None None None []).
Definition add_contact (c : string) : string * entry := ("contacts", [("add", VStr c)]).

(** Everything an authority says of its subordinates: policy, crit, constraints.
    Used at mock_authority.go:17-24,92-111. *)
Record authority := Auth { au_id : string; au_policy : option policies; au_crit : list string; au_constraints : option constraints; au_subs : list string }.
Definition authorities : list authority :=
  [ Auth ia1 None [] None [rp1; op1; op3; proxy]
  ; Auth ia2 (on_rp [add_contact "ia@example.org"]) [] None [rp1; op1; op2; ia1]
  ; Auth ta1 None [] None [ia1; ia2]
  ; Auth ta2 (on_rp [add_contact "ta@foundation.example.org"; ("client_registration_types", [("essential", VBool true)])]) [] None [ia2]
  ; Auth ta2_remove (on_rp [add_contact "ta@foundation.example.org"; ("client_registration_types", [("essential", VBool true); ("remove", VStr "explicit")])]) [] None [ia2]
  ; Auth ta2_remove_crit (on_rp [add_contact "ta@foundation.example.org"; ("client_registration_types", [("essential", VBool true); ("remove", VStr "explicit")])]) ["remove"] None [ia2]
  ; Auth ta_path None [] (Some (Constraints (Some 1%Z) None None)) [ia2]
  ; Auth ta_types None [] (Some (Constraints None None (Some ["openid_provider"]))) [ia2]
  ; Auth ta_naming None [] (Some (Constraints None (Some (Naming (Some [".example.com"]) ["op2.example.com"])) None)) [ia2] ].
(** AddAuthority is called when a subordinate is registered; trustchainfilter_test.go:147-164. *)
Definition hints_of (id : string) : list string :=
  match lookup id [(rp1, [ia1; ia2]); (op1, [ia1; ia2]); (op3, [ia1]); (proxy, [ia1]); (op2, [ia2]); (ia1, [ia2; ta1]);
                   (ia2, [ta1; ta2; ta2_remove; ta2_remove_crit; ta_path; ta_types; ta_naming])] with Some l => l | None => [] end.

Definition payload_of (st : stmt) : statement_payload := StatementPayload st "" "" "" [].
Definition leaf_statement (id : string) (m : metadata) : stmt :=
  Stmt "" id id (at_second 100) (at_second 400) (Some [id]) (hints_of id) (Some m) None None [] [] [] [] [].
(** data of a mock authority is also its entity configuration: mock_authority_test.go:75-90 *)
Definition authority_statement (a : authority) : stmt :=
  Stmt "" (au_id a) (au_id a) (at_second 100) (at_second 400) (Some [au_id a]) (hints_of (au_id a)) (Some (md_authority (au_id a)))
       (au_policy a) (au_constraints a) [] (au_crit a) [] [] [].
Definition subordinate_statement (a : authority) (sub : string) : stmt :=
  Stmt "" (au_id a) sub (at_second 100) (at_second 400) (Some [sub]) [] None (au_policy a) (au_constraints a) [] (au_crit a) [] [] [].

Definition mock_statements : list stmt :=
  ([leaf_statement rp1 (md_rp1 []); leaf_statement op1 (md_of_op op1 ["openid"; "profile"; "email"; "address"]);
    leaf_statement op2 (md_of_op op2 ["openid"; "profile"]); leaf_statement op3 (md_of_op op3 ["openid"; "profile"; "email"]);
    leaf_statement proxy md_proxy] ++ map authority_statement authorities
   ++ flat_map (fun a => map (subordinate_statement a) (au_subs a)) authorities)%list.
Definition jwt_name (iss sub : string) : string := iss ++ "|" ++ sub.
Definition mock_message (st : stmt) : message :=
  Msg (enc_statement kc_texts (payload_of st)) [Sig (Some "entity-statement+jwt") (Some (st_iss st)) "ES512" (Some (st_iss st))].
Definition mock_jwts : list (string * message) :=
  Eval vm_compute in map (fun st => (jwt_name (st_iss st) (st_sub st), mock_message st)) mock_statements.
Definition mock : Federation.network :=
  Network (Crypto (fun jwt => lookup jwt mock_jwts) (fun k => k) (fun _ _ => true)) kc_texts
    (map (fun k => Jwk k (Some k) (Some "ES512") (Some "sig")))
    (fun _ id => Some (jwt_name id id))
    (fun _ ep sub _ => match find (fun a => String.eqb ep (au_id a ++ "/fetch")) authorities with
                       | Some a => Some (jwt_name (au_id a) sub) | None => None end)
    (fun _ _ => at_second 200)
    hostname.
Definition mock_world : world := seen mock.
Definition anchor_of (id : string) : anchor := Anchor id (Some [id]).
