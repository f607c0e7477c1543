(** Decoding of entity statements and resolve responses from the payloads of their JWTs:
    entitystatement.go:66-87,172-243,244-262, metadata.go:14-23,198-208,374-382,411-419,
    metadata_generated.go (UnmarshalJSON), metadataPolicy.go:43-68, trustresolver.go:80-111.
    Simplification for all of them: a claim that is not a text or a number and appears twice
    (only in documents with repeated member names) counts as its last occurrence, while
    encoding/json decodes the second object into what the first one gave. *)
From Coq Require Import QArith Qround.
From Verif Require Import Base GoVal Policy Schema Metadata Chain Resolver FloatTime Json TrustMark Leaf Config.
From Verif Require Import GoVal.
Local Open Scope nat_scope.
Local Open Scope string_scope.

(** A map filled with entries in turn: of several with the same name the last one counts.
    Used at entitystatement.go:136-152. *)
Definition last_map {A} (o : list (string * A)) : smap A := fold_left (fun m kv => insert (fst kv) (snd kv) m) o [].

(** json.Unmarshal into an interface{}. Simplification: GoVal.v has integral numbers only, a
    fraction is dropped. Used at entitystatement.go:136-152. *)
Fixpoint any_of (j : json) : gval :=
  match j with
  | JNull => VNil
  | JBool b => VBool b
  | JNum q => VFloat (Qfloor q)
  | JStr s => VStr s
  | JArr l => VSlice TAny false (map any_of l)
  | JObj o => VMap TAny false (last_map (map (fun kv => (fst kv, any_of (snd kv))) o))
  end.

(** []string, []PolicyOperatorName. Used at entitystatement.go:68-88. *)
Definition dec_names (j : json) : res (option (list string)) :=
  match j with
  | JNull => Ok None
  | JArr l => r <- dec_strs l ;; Ok (Some r)
  | _ => Err
  end.
(** A slice of other elements; null decodes to nil. Used at entitystatement.go:68-88. *)
Definition dec_slice {A} (dec : json -> res A) (j : json) : res (list A) :=
  match j with JNull => Ok [] | JArr l => map_res dec l | _ => Err end.
(** A map; null decodes to nil. Every value is decoded into a fresh one.
    Used at entitystatement.go:68-88,211-214. *)
Definition dec_map {A} (dec : json -> res A) (j : json) : res (smap A) :=
  match j with
  | JNull => Ok []
  | JObj o => kv <- map_res (fun x => v <- dec (snd x) ;; Ok (fst x, v)) o ;; Ok (last_map kv)
  | _ => Err
  end.
(** A pointer: null decodes to nil. Used at entitystatement.go:68-88. *)
Definition dec_ptr {A} (dec : json -> res A) (j : json) : res (option A) :=
  match j with JNull => Ok None | _ => x <- dec j ;; Ok (Some x) end.
(** int (64 bits); an integral number is taken to be written as an integer, as in Leaf.v.
    Used at entitystatement.go:198-203. *)
Definition dec_int (j : json) : res Z :=
  match j with
  | JNum q => if (Pos.eqb (Qden (Qred q)) 1 && Z.eqb (wrap64 (Qnum (Qred q))) (Qnum (Qred q)))%bool then Ok (Qnum (Qred q)) else Err
  | _ => Err
  end.

(** The values of the fields below. Used at entitystatement.go:68-88,198-221. *)
Inductive sval :=
| SStr (s : string) | STime (t : time) | SInt (z : option Z)
| SNames (l : option (list string)) | SKeys (k : jwks)
| SEntity (m : option emeta) | SMeta (m : option metadata) | SPol (p : option policies)
| SNaming (n : option naming) | SCons (c : option constraints) | SMarks (l : list info)
| SIssuers (m : smap (list string)) | SOwners (m : smap (string * jwks)).

(** Encoding is not used here. Used at entitystatement.go:68-88,198-221. *)
Definition text_codec : codec sval :=
  Codec (SStr "") (fun _ => false) (fun _ => JNull)
        (fun old j => s <- dec_str (match old with SStr s => s | _ => "" end) j ;; Ok (SStr s)).
Definition value_codec {A} (wrap : A -> sval) (zero : A) (dec : json -> res A) : codec sval :=
  Codec (wrap zero) (fun _ => false) (fun _ => JNull) (fun _ j => x <- dec j ;; Ok (wrap x)).
Definition snth (i : nat) (l : list sval) : sval := nth i l (SStr "").
Definition sv_str (v : sval) : string := match v with SStr s => s | _ => "" end.
Definition sv_time (v : sval) : time := match v with STime t => t | _ => zero_time end.
Definition sv_int (v : sval) : option Z := match v with SInt z => z | _ => None end.
Definition sv_names (v : sval) : option (list string) := match v with SNames l => l | _ => None end.
Definition sv_keys (v : sval) : jwks := match v with SKeys k => k | _ => None end.
Definition sv_entity (v : sval) : option emeta := match v with SEntity m => m | _ => None end.
Definition sv_meta (v : sval) : option metadata := match v with SMeta m => m | _ => None end.
Definition sv_pol (v : sval) : option policies := match v with SPol p => p | _ => None end.
Definition sv_naming (v : sval) : option naming := match v with SNaming n => n | _ => None end.
Definition sv_cons (v : sval) : option constraints := match v with SCons c => c | _ => None end.
Definition sv_marks (v : sval) : list info := match v with SMarks l => l | _ => [] end.
Definition sv_issuers (v : sval) : smap (list string) := match v with SIssuers m => m | _ => [] end.
Definition sv_owners (v : sval) : smap (string * jwks) := match v with SOwners m => m | _ => [] end.

(** The members of an object with those added that encoding/json stores in a field although
    their name differs from the field's in case; they are kept in Extra as well.
    Used at entitystatement.go:136-152. *)
Definition folded (sch : list frow) (o : list (string * json)) : list (string * json) :=
  flat_map (fun kv => match find (fun r => (negb (String.eqb (fr_tag r) "-") && String.eqb (fold_name (fr_tag r)) (fold_name (fst kv)))%bool) sch with
                      | Some r => if String.eqb (fr_tag r) (fst kv) then [kv] else [(fr_tag r, snd kv); kv]
                      | None => [kv]
                      end) o.
(** The UnmarshalJSON methods of the typed metadata (metadata_generated.go:108-130 and the
    same for the other types; metadata.go:374-382,411-419 for OAuth servers and clients).
    They are called for objects and, except for null at a pointer, for anything else, which is
    an error. *)
Definition dec_entity (sch : list frow) (j : json) : res emeta :=
  match j with
  | JObj o => decode_meta sch (last_map (map (fun kv => (fst kv, any_of (snd kv))) (folded sch o)))
  | _ => Err
  end.

(** Metadata: metadata.go:14-23 *)
Definition metadata_fields : list (jfield sval) :=
  map (fun ts => JField (fst ts) true (value_codec SEntity None (dec_ptr (dec_entity (snd ts)))))
    [("openid_provider", op_schema); ("openid_relying_party", rp_schema); ("oauth_authorization_server", op_schema);
     ("oauth_client", rp_schema); ("oauth_resource", pr_schema); ("federation_entity", fe_schema)].
(** Metadata.UnmarshalJSON: metadata.go:198-208 *)
Definition dec_metadata (j : json) : res metadata :=
  '(vs, x) <- unmarshal_with_extra metadata_fields j (zeros metadata_fields) ;;
  Ok (Metadata (sv_entity (snth 0 vs)) (sv_entity (snth 1 vs)) (sv_entity (snth 2 vs))
               (sv_entity (snth 3 vs)) (sv_entity (snth 4 vs)) (sv_entity (snth 5 vs))
               (map (fun kv => (fst kv, any_of (snd kv))) x)).

(** The operands of a decoded MetadataPolicy as Go values. A nil entry is the empty one.
    Used at metadataPolicy.go:43-77. *)
Definition entry_of (e : option (smap json)) : entry :=
  match e with Some m => map (fun kv => (fst kv, any_of (snd kv))) m | None => [] end.
Definition policy_of (p : jpolicy) : gpolicy :=
  option_map (map (fun kv => (fst kv, entry_of (snd kv)))) p.
(** MetadataPolicies.UnmarshalJSON: metadataPolicy.go:43-68 *)
Definition dec_policies (j : json) : res policies :=
  p <- unmarshal_policies j ;;
  Ok (Policies (policy_of (nth 0 (jp_known p) None)) (policy_of (nth 1 (jp_known p) None)) (policy_of (nth 2 (jp_known p) None))
               (policy_of (nth 3 (jp_known p) None)) (policy_of (nth 4 (jp_known p) None)) (policy_of (nth 5 (jp_known p) None))
               (map (fun kv => (fst kv, policy_of (snd kv))) (jp_extra p))).

(** NamingConstraints: entitystatement.go:205-208 *)
Definition naming_fields : list (jfield sval) :=
  [ JField "permitted" true (value_codec SNames None dec_names); JField "excluded" true (value_codec SNames None dec_names) ].
Definition dec_naming (j : json) : res naming :=
  vs <- unmarshal naming_fields j ;; Ok (Naming (sv_names (snth 0 vs)) (items (sv_names (snth 1 vs)))).
(** ConstraintSpecification: entitystatement.go:198-202 *)
Definition constraint_fields : list (jfield sval) :=
  [ JField "max_path_length" true (value_codec SInt None (dec_ptr dec_int));
    JField "naming_constraints" true (value_codec SNaming None (dec_ptr dec_naming));
    JField "allowed_entity_types" true (value_codec SNames None dec_names) ].
Definition dec_constraints (j : json) : res constraints :=
  vs <- unmarshal constraint_fields j ;;
  Ok (Constraints (sv_int (snth 0 vs)) (sv_naming (snth 1 vs)) (sv_names (snth 2 vs))).

(** AllowedTrustMarkIssuers: entitystatement.go:211 *)
Definition dec_issuers (j : json) : res (smap (list string)) :=
  dec_map (fun x => l <- dec_names x ;; Ok (items l)) j.

(** TrustMarkOwnerSpec: entitystatement.go:217-231; TrustMarkOwners: entitystatement.go:214 *)
Definition owner_fields (kc : keycodec (list string)) : list (jfield sval) :=
  [ JField "sub" false text_codec; JField "jwks" false (value_codec SKeys None (dec_keys kc)) ].
Definition dec_owner (kc : keycodec (list string)) (j : json) : res (string * jwks) :=
  vs <- unmarshal (owner_fields kc) j ;; Ok (sv_str (snth 0 vs), sv_keys (snth 1 vs)).
Definition dec_owners (kc : keycodec (list string)) (j : json) : res (smap (string * jwks)) := dec_map (dec_owner kc) j.

(** TrustMarkInfos: trustmark.go:19, with TrustMarkInfo.UnmarshalJSON for every element. *)
Definition dec_infos (j : json) : res (list info) := dec_slice (fun x => unmarshal_info x (Info "" "" [] None)) j.

(** EntityStatementPayload: entitystatement.go:68-87 *)
Definition statement_fields (kc : keycodec (list string)) : list (jfield sval) :=
  [ JField "iss" false text_codec; JField "sub" false text_codec;
    JField "iat" false (value_codec STime zero_time dec_time); JField "exp" false (value_codec STime zero_time dec_time);
    JField "jwks" false (value_codec SKeys None (dec_keys kc)); JField "aud" true text_codec;
    JField "authority_hints" true (value_codec SNames None dec_names);
    JField "metadata" true (value_codec SMeta None (dec_ptr dec_metadata));
    JField "metadata_policy" true (value_codec SPol None (dec_ptr dec_policies));
    JField "constraints" true (value_codec SCons None (dec_ptr dec_constraints));
    JField "crit" true (value_codec SNames None dec_names);
    JField "metadata_policy_crit" true (value_codec SNames None dec_names);
    JField "trust_marks" true (value_codec SMarks [] dec_infos);
    JField "trust_mark_issuers" true (value_codec SIssuers [] dec_issuers);
    JField "trust_mark_owners" true (value_codec SOwners [] (dec_owners kc));
    JField "source_endpoint" true text_codec; JField "trust_anchor_id" true text_codec ].
(** EntityStatementPayload.UnmarshalJSON: entitystatement.go:174-184. Of the claims those in
    [stmt] are kept (see Chain.v). *)
Definition dec_statement (kc : keycodec (list string)) (jwt : string) (j : json) : res stmt :=
  '(vs, _) <- unmarshal_with_extra (statement_fields kc) j (zeros (statement_fields kc)) ;;
  Ok (Stmt jwt (sv_str (snth 0 vs)) (sv_str (snth 1 vs)) (sv_time (snth 2 vs)) (sv_time (snth 3 vs)) (sv_keys (snth 4 vs))
        (items (sv_names (snth 6 vs))) (sv_meta (snth 7 vs)) (sv_pol (snth 8 vs)) (sv_cons (snth 9 vs))
        (items (sv_names (snth 10 vs))) (items (sv_names (snth 11 vs)))
        (map (fun t => (ti_type t, ti_jwt t)) (sv_marks (snth 12 vs))) (sv_issuers (snth 13 vs)) (sv_owners (snth 14 vs))).
(** ParseEntityStatement: entitystatement.go:245-262. [parse] gives the typ header and the
    payload of a JWS (None: not a JWS, or without typ, or a payload that is not JSON). The typ
    header is that of oidfedconst/constants.go:15. *)
Definition parse_statement (parse : string -> option (string * json)) (kc : keycodec (list string)) (jwt : string) : res stmt :=
  match parse jwt with
  | None => Err
  | Some (typ, j) => if negb (String.eqb typ "entity-statement+jwt") then Err else dec_statement kc jwt j
  end.

(** JWSMessages.UnmarshalJSON: trustresolver.go:126-139; [jws] tells whether jws.Parse accepts
    a text. *)
Definition dec_messages (jws : string -> bool) (j : json) : res (option (list string)) :=
  l <- dec_names j ;; if forallb jws (items l) then Ok l else Err.
(** ResolveResponsePayload.UnmarshalJSON: trustresolver.go:81-86,101-111. The Extra claims are
    not used. *)
Definition response_fields (jws : string -> bool) : list (jfield sval) :=
  [ JField "metadata" true (value_codec SMeta None (dec_ptr dec_metadata));
    JField "trust_marks" true (value_codec SMarks [] dec_infos);
    JField "trust_chain" true (value_codec SNames None (dec_messages jws)) ].
Definition dec_response (jws : string -> bool) (j : json) : res payload :=
  '(vs, _) <- unmarshal_with_extra (response_fields jws) j (zeros (response_fields jws)) ;;
  Ok (Payload (sv_meta (snth 0 vs)) (sv_marks (snth 1 vs)) (items (sv_names (snth 2 vs)))).

(** The world of a resolver when the bodies of the replies are given: [get] and [fetch] are the
    bodies of entity configurations and subordinate statements (trustresolver.go:504-608; None:
    no successful reply). Bodies that are not statements count as errors. *)
Definition ok_or_none {A} (r : res A) : option A := match r with Ok a => Some a | _ => None end.
Definition world_of (parse : string -> option (string * json)) (kc : keycodec (list string))
           (get : list nat -> string -> option string) (fetch : list nat -> string -> string -> string -> option string)
           (now : list nat -> bool -> time) (verify : string -> list string -> bool) (host : string -> option string) : world :=
  World (fun p id => match get p id with Some b => ok_or_none (parse_statement parse kc b) | None => None end)
        (fun p ep sub iss => match fetch p ep sub iss with Some b => ok_or_none (parse_statement parse kc b) | None => None end)
        now verify host.
