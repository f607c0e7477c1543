(** Encoding of entity statements for signing: the MarshalJSON methods of
    EntityStatementPayload, Metadata, the typed metadata and MetadataPolicies, and json.Marshal
    of the structs below them. As in Json.v the order of members is not modelled. Values that
    json.Marshal cannot encode (channels, NaN, ...) do not occur. *)
From Coq Require Import QArith.
From Verif Require Import Base GoVal Policy Schema Metadata Chain Resolver FloatTime Json TrustMark Refresher Leaf Config Jwt Statement.
From Verif Require Import GoVal.
Local Open Scope nat_scope.
Local Open Scope string_scope.

(** json.Marshal of a Go value; nil slices, maps and pointers give null.
    Used at entitystatement.go:94-134. *)
Fixpoint any_json (v : gval) : json :=
  match v with
  | VNil => JNull
  | VBool b => JBool b
  | VInt z | VFloat z => JNum (inject_Z z)
  | VStr s => JStr s
  | VJwks None => JNull
  | VJwks (Some w) => any_json w
  | VMap _ isnil kv => if isnil then JNull else JObj (map (fun x => (fst x, any_json (snd x))) kv)
  | VSlice _ isnil l => if isnil then JNull else JArr (map any_json l)
  end.

(** What omitempty omits. Used at metadata_generated.go:14-33. *)
Definition go_empty (v : gval) : bool :=
  match v with
  | VNil => true
  | VBool b => negb b
  | VInt z | VFloat z => Z.eqb z 0
  | VStr s => String.eqb s ""
  | VJwks p => match p with None => true | Some _ => false end
  | VMap _ _ kv => match kv with [] => true | _ => false end
  | VSlice _ _ l => match l with [] => true | _ => false end
  end.

(** One struct field of a metadata struct; Extra has the tag "-".
    Used at metadata_generated.go:14-33. *)
Definition enc_row (fv : frow * gval) : list (string * json) :=
  let '(r, v) := fv in
  if String.eqb (fr_tag r) "-" then []
  else if (fr_omitempty r && go_empty v)%bool then []
  else [(fr_tag r, any_json v)].
(** The MarshalJSON methods of the typed metadata: metadata_generated.go:56-63,305-312,578-585,737-744,
    metadata.go:370-372,406-408 *)
Definition enc_entity (m : emeta) : json :=
  JObj (overlay (flat_map enc_row (em_fields m)) (map (fun kv => (fst kv, any_json (snd kv))) (extra_value m))).

(** The field tables of Statement.v with what json.Marshal does with the fields.
    Used at entitystatement.go:68-88. *)
Definition empty_sval (v : sval) : bool :=
  match v with
  | SStr s => String.eqb s ""
  | SInt None | SNames None | SNames (Some []) | SEntity None | SMeta None | SPol None | SNaming None | SCons None
  | SMarks [] | SIssuers [] | SOwners [] => true
  | _ => false
  end.
Definition with_enc (enc : sval -> json) (f : jfield sval) : jfield sval :=
  JField (f_tag f) (f_omit f) (Codec (c_zero (f_codec f)) empty_sval enc (c_dec (f_codec f))).

Definition enc_names (l : option (list string)) : json := match l with None => JNull | Some l => JArr (map JStr l) end.
Definition enc_opt {A} (enc : A -> json) (x : option A) : json := match x with None => JNull | Some a => enc a end.

(** Metadata.MarshalJSON: metadata.go:187-194 *)
Definition enc_entity_field (v : sval) : json := enc_opt enc_entity (sv_entity v).
Definition enc_metadata (m : metadata) : json :=
  marshal (map (with_enc enc_entity_field) metadata_fields)
          [SEntity (md_op m); SEntity (md_rp m); SEntity (md_as m); SEntity (md_oc m); SEntity (md_pr m); SEntity (md_fe m)]
          (map (fun kv => (fst kv, any_json (snd kv))) (md_extra m)).

(** MetadataPolicies.MarshalJSON: metadataPolicy.go:26-39. Entries of an attribute are never
    nil here. *)
Definition json_policy (p : gpolicy) : jpolicy :=
  option_map (map (fun a => (fst a, Some (map (fun kv => (fst kv, any_json (snd kv))) (snd a))))) p.
Definition enc_policies (p : policies) : json :=
  marshal_policies (JPolicies (map json_policy [mp_op p; mp_rp p; mp_as p; mp_oc p; mp_pr p; mp_fe p])
                              (map (fun kv => (fst kv, json_policy (snd kv))) (mp_extra p))).

(** NamingConstraints and ConstraintSpecification, structs without additional claims:
    entitystatement.go:198-208 *)
Definition enc_naming (n : naming) : json :=
  marshal (map (with_enc (fun v => enc_names (sv_names v))) naming_fields) [SNames (nc_permitted n); SNames (Some (nc_excluded n))] [].
Definition enc_constraint_field (v : sval) : json :=
  match v with
  | SInt z => enc_opt (fun z => JNum (inject_Z z)) z
  | SNaming n => enc_opt enc_naming n
  | SNames l => enc_names l
  | _ => JNull
  end.
Definition enc_constraints (c : constraints) : json :=
  marshal (map (with_enc enc_constraint_field) constraint_fields) [SInt (co_max_path c); SNaming (co_naming c); SNames (co_types c)] [].

(** TrustMarkInfo: trustmark.go:61-77; AllowedTrustMarkIssuers, TrustMarkOwners:
    entitystatement.go:211-220. A nil list of issuers is written like an empty one (Go: null,
    which is read as an empty one as well). *)
Definition enc_info (t : info) : json := marshal mark_info_fields [GStr (ti_type t); GStr (ti_jwt t)] (ti_extra t).
Definition enc_issuers (m : smap (list string)) : json := JObj (map (fun kv => (fst kv, JArr (map JStr (snd kv)))) m).
Definition enc_owners (kc : keycodec (list string)) (m : smap (string * jwks)) : json :=
  JObj (map (fun kv => (fst kv, JObj [("sub", JStr (fst (snd kv))); ("jwks", enc_keys kc (snd (snd kv)))])) m).

Definition enc_statement_field (kc : keycodec (list string)) (v : sval) : json :=
  match v with
  | SStr s => JStr s
  | STime t => JNum (encode_time t)
  | SKeys k => enc_keys kc k
  | SNames l => enc_names l
  | SMeta m => enc_opt enc_metadata m
  | SPol p => enc_opt enc_policies p
  | SCons c => enc_opt enc_constraints c
  | SMarks l => JArr (map enc_info l)
  | SIssuers m => enc_issuers m
  | SOwners m => enc_owners kc m
  | _ => JNull
  end.

(** An EntityStatementPayload: the claims of a [stmt] (its [st_jwt] is not used) with those that
    [stmt] does not have. The values of Extra are identified with their JSON.
    Used at entitystatement.go:68-88. *)
Record statement_payload := StatementPayload {
  sp_claims : stmt; sp_aud : string; sp_source : string; sp_anchor : string; sp_extra : smap json }.
(** EntityStatementPayload.MarshalJSON: entitystatement.go:127-134 *)
Definition enc_statement (kc : keycodec (list string)) (p : statement_payload) : json :=
  let s := sp_claims p in
  marshal (map (with_enc (enc_statement_field kc)) (statement_fields kc))
    [ SStr (st_iss s); SStr (st_sub s); STime (st_iat s); STime (st_exp s); SKeys (st_jwks s); SStr (sp_aud p);
      SNames (Some (st_hints s)); SMeta (st_metadata s); SPol (st_policy s); SCons (st_constraints s);
      SNames (Some (st_crit s)); SNames (Some (st_policy_crit s)); SMarks (map (fun m => Info (fst m) (snd m) [] None) (st_marks s));
      SIssuers (st_mark_issuers s); SOwners (st_mark_owners s); SStr (sp_source p); SStr (sp_anchor p) ]
    (sp_extra p).

(** SignEntityStatement and EntityConfigurationJWT: federation.go:111-121, jwtsigning.go:120-123 *)
Definition sign_statement (cx : crypto) (kc : keycodec (list string)) (s : jwt_signer) (p : statement_payload) : res message :=
  typed_jwt cx Jwt.Statement s (Ok (enc_statement kc p)).

(** The payload of EntityConfigurationPayload with its Extra claims: federation.go:80-109. *)
Definition config_statement (f : entity) (now : time) (marks : list (string * res string)) (extra : smap json) : statement_payload :=
  StatementPayload (config_payload f now marks) "" "" "" extra.
