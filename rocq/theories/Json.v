(** Encoding and decoding of structs with additional claims: the helpers of
    entitystatement.go used by all types with an Extra field, and the types that use them
    in their own way (MetadataPolicies, ResolveResponse, SliceOrSingleValue). Texts are not
    modelled: a JSON document is the value it denotes. *)
From Coq Require Import QArith.
From Verif Require Import Base GoVal Policy Schema Metadata Chain FloatTime.
Local Open Scope nat_scope.
Local Open Scope string_scope.

(** A JSON value. An object is the list of its members in the order of the text. Numbers
    are float64 values (see FloatTime.v). Used at entitystatement.go:94-152. *)
Inductive json :=
| JNull
| JBool (b : bool)
| JNum (q : Q)
| JStr (s : string)
| JArr (l : list json)
| JObj (o : list (string * json)).

(** encoding/json matches object keys with field names exactly and otherwise without
    regard to case (foldName; only the ASCII part of Unicode case folding is modelled).
    Used at entitystatement.go:136-152. *)
Definition lower (c : ascii) : ascii :=
  let n := nat_of_ascii c in if (Nat.leb 65 n && Nat.leb n 90)%bool then ascii_of_nat (n + 32) else c.
Fixpoint fold_name (s : string) : string :=
  match s with EmptyString => EmptyString | String c r => String (lower c) (fold_name r) end.

(** How encoding/json treats one field type: the zero value, what omitempty omits,
    encoding, and decoding into an existing value. Used at entitystatement.go:68-88. *)
Record codec (V : Type) := Codec {
  c_zero : V; c_empty : V -> bool; c_enc : V -> json; c_dec : V -> json -> res V }.
Arguments Codec {V} _ _ _ _.
Arguments c_zero {V} _.
Arguments c_empty {V} _ _.
Arguments c_enc {V} _ _.
Arguments c_dec {V} _ _ _.

(** A struct field with its json tag. Fields tagged "-" do not appear.
    Used at entitystatement.go:68-88. *)
Record jfield (V : Type) := JField { f_tag : string; f_omit : bool; f_codec : codec V }.
Arguments JField {V} _ _ _.
Arguments f_tag {V} _.
Arguments f_omit {V} _.
Arguments f_codec {V} _.

Definition tags {V} (fs : list (jfield V)) : list string := map f_tag fs.

(** The field an object key is decoded into. Used at entitystatement.go:136-152. *)
Fixpoint index_of (p : string -> bool) (l : list string) : option nat :=
  match l with
  | [] => None
  | x :: l' => if p x then Some 0 else match index_of p l' with Some i => Some (S i) | None => None end
  end.
Definition field_of (ts : list string) (k : string) : option nat :=
  match index_of (String.eqb k) ts with
  | Some i => Some i
  | None => index_of (fun t => String.eqb (fold_name k) (fold_name t)) ts
  end.

Fixpoint set_nth {A} (i : nat) (x : A) (l : list A) : list A :=
  match l, i with
  | [], _ => []
  | _ :: l', 0 => x :: l'
  | y :: l', S i' => y :: set_nth i' x l'
  end.

(** json.Marshal of the struct without its Extra field. Used at entitystatement.go:94-134. *)
Fixpoint enc_fields {V} (fs : list (jfield V)) (vs : list V) : list (string * json) :=
  match fs, vs with
  | f :: fs', v :: vs' =>
      if f_omit f && c_empty (f_codec f) v then enc_fields fs' vs'
      else (f_tag f, c_enc (f_codec f) v) :: enc_fields fs' vs'
  | _, _ => []
  end.

(** json.Unmarshal of an object into the struct: the members in order. A member that does
    not fit makes the whole call fail. Used at entitystatement.go:136-152. *)
Fixpoint dec_fields {V} (fs : list (jfield V)) (o : list (string * json)) (vs : list V) : res (list V) :=
  match o with
  | [] => Ok vs
  | (k, j) :: o' =>
      match field_of (tags fs) k with
      | None => dec_fields fs o' vs
      | Some i =>
          match nth_error fs i, nth_error vs i with
          | Some f, Some v => v' <- c_dec (f_codec f) v j ;; dec_fields fs o' (set_nth i v' vs)
          | _, _ => dec_fields fs o' vs
          end
      end
  end.

(** extraMarshalHelper: entitystatement.go:94-108. (json.Marshal sorts the members of a
    map; the order is not modelled.) *)
Definition overlay (explicit extra : smap json) : smap json :=
  fold_left (fun m kv => insert (fst kv) (snd kv) m) extra explicit.

(** A decoded map: of several members with the same name the last one counts.
    Used at entitystatement.go:136-152. *)
Definition as_map (o : list (string * json)) : smap json :=
  fold_left (fun m kv => insert (fst kv) (snd kv) m) o [].

(** unmarshalWithExtra: entitystatement.go:136-152, into the value [vs]. nil and empty
    Extra maps are not distinguished. null and non-objects: Unmarshal of null into a struct
    is a no-op, of anything else an error. *)
Definition unmarshal_with_extra {V} (fs : list (jfield V)) (j : json) (vs : list V) : res (list V * smap json) :=
  match j with
  | JNull => Ok (vs, [])
  | JObj o =>
      vs' <- dec_fields fs o vs ;;
      Ok (vs', filter (fun kv => negb (mem (fst kv) (tags fs))) (as_map o))
  | _ => Err
  end.

(** The MarshalJSON methods of EntityStatementPayload, TrustMarkInfo, TrustMark,
    DelegationJWT, TrustMarkSpec, ResolveResponsePayload, Metadata, CollectedEntity, UIInfo:
    entitystatement.go:127-134, trustmark.go:70-77,166-173,328-335,392-399,
    trustresolver.go:90-97, metadata.go:187-194, discovery.go:111-118,135-142 *)
Definition marshal {V} (fs : list (jfield V)) (vs : list V) (extra : smap json) : json :=
  JObj (overlay (enc_fields fs vs) extra).

Definition zeros {V} (fs : list (jfield V)) : list V := map (fun f => c_zero (f_codec f)) fs.

(** ** Codecs of the field types used below *)

(** string. Used at trustmark.go:61-68. *)
Definition dec_str (old : string) (j : json) : res string :=
  match j with JStr s => Ok s | JNull => Ok old | _ => Err end.

(** Unixtime; null is decoded as the number 0 (json.Unmarshal of null into a float64 is a
    no-op). Used at unixtime/unixtime.go:18-27. *)
Definition dec_time (j : json) : res time :=
  match j with JNum q => Ok (decode_time q) | JNull => Ok (decode_time 0%Q) | _ => Err end.

(** *Unixtime. Used at trustmark.go:150-164. *)
Definition dec_time_ptr (j : json) : res (option time) :=
  match j with JNum q => Ok (Some (decode_time q)) | JNull => Ok None | _ => Err end.

(** []string. Used at entitystatement.go:205-211. *)
Fixpoint dec_strs (l : list json) : res (list string) :=
  match l with
  | [] => Ok []
  | j :: l' => s <- dec_str "" j ;; r <- dec_strs l' ;; Ok (s :: r)
  end.

(** Field values of the structs modelled here. [GList] is a []string, nil or not; [GRaw]
    any other type, whose values are identified with their JSON.
    Used at trustmark.go:150-164,315-326. *)
Inductive gval := GStr (s : string) | GTime (t : time) | GTimePtr (t : option time) | GList (l : option (list string)) | GRaw (j : json).

Definition str_codec : codec gval :=
  Codec (GStr "") (fun v => match v with GStr "" => true | _ => false end)
        (fun v => match v with GStr s => JStr s | _ => JNull end)
        (fun old j => s <- dec_str (match old with GStr s => s | _ => "" end) j ;; Ok (GStr s)).
(** omitempty never omits a struct. Used at unixtime/unixtime.go:13-35. *)
Definition time_codec : codec gval :=
  Codec (GTime zero_time) (fun _ => false)
        (fun v => match v with GTime t => JNum (encode_time t) | _ => JNull end)
        (fun _ j => t <- dec_time j ;; Ok (GTime t)).
Definition time_ptr_codec : codec gval :=
  Codec (GTimePtr None) (fun v => match v with GTimePtr (Some _) => false | _ => true end)
        (fun v => match v with GTimePtr (Some t) => JNum (encode_time t) | _ => JNull end)
        (fun _ j => t <- dec_time_ptr j ;; Ok (GTimePtr t)).
Definition list_codec : codec gval :=
  Codec (GList None) (fun v => match v with GList (Some (_ :: _)) => false | _ => true end)
        (fun v => match v with GList (Some l) => JArr (map JStr l) | _ => JNull end)
        (fun _ j => match j with
                    | JNull => Ok (GList None)
                    | JArr l => r <- dec_strs l ;; Ok (GList (Some r))
                    | _ => Err
                    end).
Definition raw_codec : codec gval :=
  Codec (GRaw JNull) (fun v => match v with GRaw JNull => true | _ => false end)
        (fun v => match v with GRaw j => j | _ => JNull end)
        (fun _ j => Ok (GRaw j)).

(** EntityStatementPayload: entitystatement.go:68-87 *)
Definition entity_statement_fields : list (jfield gval) :=
  [ JField "iss" false str_codec; JField "sub" false str_codec; JField "iat" false time_codec;
    JField "exp" false time_codec; JField "jwks" false raw_codec; JField "aud" true str_codec;
    JField "authority_hints" true list_codec; JField "metadata" true raw_codec;
    JField "metadata_policy" true raw_codec; JField "constraints" true raw_codec;
    JField "crit" true list_codec; JField "metadata_policy_crit" true list_codec;
    JField "trust_marks" true raw_codec; JField "trust_mark_issuers" true raw_codec;
    JField "trust_mark_owners" true raw_codec; JField "source_endpoint" true str_codec;
    JField "trust_anchor_id" true str_codec ].

(** TrustMarkInfo: trustmark.go:61-66 *)
Definition mark_info_fields : list (jfield gval) :=
  [ JField "trust_mark_type" false str_codec; JField "trust_mark" false str_codec ].

(** TrustMark: trustmark.go:150-162 *)
Definition mark_fields : list (jfield gval) :=
  [ JField "iss" false str_codec; JField "sub" false str_codec; JField "trust_mark_type" false str_codec;
    JField "iat" false time_codec; JField "logo_uri" true str_codec; JField "exp" true time_ptr_codec;
    JField "ref" true str_codec; JField "delegation" true str_codec ].

(** DelegationJWT: trustmark.go:315-324 *)
Definition delegation_fields : list (jfield gval) :=
  [ JField "iss" false str_codec; JField "sub" false str_codec; JField "trust_mark_type" false str_codec;
    JField "iat" false time_codec; JField "exp" true time_ptr_codec; JField "ref" true str_codec ].

(** ResolveResponsePayload: trustresolver.go:81-86 *)
Definition resolve_payload_fields : list (jfield gval) :=
  [ JField "metadata" true raw_codec; JField "trust_marks" true raw_codec; JField "trust_chain" true list_codec ].

(** The fields of ResolveResponse itself: trustresolver.go:41-48,57-63 *)
Definition resolve_own_fields : list (jfield gval) :=
  [ JField "iss" false str_codec; JField "sub" false str_codec; JField "iat" false time_codec;
    JField "exp" false time_codec; JField "aud" true str_codec ].

(** ** ResolveResponse: trustresolver.go:41-111 *)
Record resolve_response := ResolveResponse {
  rr_own : list gval;        (* iss, sub, iat, exp, aud *)
  rr_payload : list gval;    (* metadata, trust_marks, trust_chain *)
  rr_extra : smap json }.

(** MarshalJSON: trustresolver.go:52-78. The two texts are joined with a comma, which is
    not JSON when the payload has no member; extraMarshalHelper then fails. A member that
    occurs twice counts as its last occurrence. *)
Definition marshal_response (r : resolve_response) : res json :=
  match overlay (enc_fields resolve_payload_fields (rr_payload r)) (rr_extra r) with
  | [] => Err
  | payload => Ok (JObj (overlay (as_map (payload ++ enc_fields resolve_own_fields (rr_own r))%list) (rr_extra r)))
  end.

(** json.Unmarshal into a ResolveResponse calls the method promoted from the embedded
    ResolveResponsePayload: trustresolver.go:101-111; the other fields are not touched. *)
Definition unmarshal_response (j : json) (r : resolve_response) : res resolve_response :=
  '(vs, x) <- unmarshal_with_extra resolve_payload_fields j (zeros resolve_payload_fields) ;;
  Ok (ResolveResponse (rr_own r) vs x).
Definition zero_response : resolve_response :=
  ResolveResponse (zeros resolve_own_fields) (zeros resolve_payload_fields) [].

(** ** MetadataPolicies: metadataPolicy.go:14-68 *)

(** MetadataPolicy: map[string]map[PolicyOperatorName]any; nil or the entries.
    Used at metadataPolicy.go:71-77. *)
Definition jpolicy := option (smap (option (smap json))).

Definition enc_policy (p : jpolicy) : json :=
  match p with
  | None => JNull
  | Some m => JObj (map (fun kv => (fst kv, match snd kv with Some e => JObj e | None => JNull end)) m)
  end.
Fixpoint dec_entries (o : list (string * json)) (m : smap (option (smap json))) : res (smap (option (smap json))) :=
  match o with
  | [] => Ok m
  | (k, JNull) :: o' => dec_entries o' (insert k None m)
  | (k, JObj e) :: o' => dec_entries o' (insert k (Some (as_map e)) m)
  | _ :: _ => Err
  end.
Definition dec_policy (old : jpolicy) (j : json) : res jpolicy :=
  match j with
  | JNull => Ok None
  | JObj o => m <- dec_entries o (match old with Some m => m | None => [] end) ;; Ok (Some m)
  | _ => Err
  end.
Definition policy_codec : codec jpolicy :=
  Codec None (fun p => match p with Some (_ :: _) => false | _ => true end) enc_policy dec_policy.

Definition policies_fields : list (jfield jpolicy) :=
  map (fun t => JField t true policy_codec)
    ["openid_provider"; "openid_relying_party"; "oauth_authorization_server"; "oauth_client"; "oauth_resource"; "federation_entity"].

Record jpolicies := JPolicies { jp_known : list jpolicy; jp_extra : smap jpolicy }.

(** MarshalJSON: metadataPolicy.go:26-39 *)
Definition marshal_policies (p : jpolicies) : json :=
  JObj (overlay (enc_fields policies_fields (jp_known p)) (map (fun kv => (fst kv, enc_policy (snd kv))) (jp_extra p))).

(** The type assertion v.(MetadataPolicy) on a value decoded into interface{}:
    metadataPolicy.go:56. Such a value is nil, bool, float64, string, []interface{} or
    map[string]interface{}, never a MetadataPolicy. *)
Definition assert_policy (j : json) : option jpolicy := None.

(** UnmarshalJSON: metadataPolicy.go:43-68, into a fresh object. *)
Fixpoint assert_all (x : smap json) : res (smap jpolicy) :=
  match x with
  | [] => Ok []
  | (k, j) :: x' => match assert_policy j with
                    | None => Err
                    | Some p => r <- assert_all x' ;; Ok ((k, p) :: r)
                    end
  end.
Definition unmarshal_policies (j : json) : res jpolicies :=
  '(vs, x) <- unmarshal_with_extra policies_fields j (zeros policies_fields) ;;
  ps <- assert_all x ;;
  Ok (JPolicies vs ps).

(** ** SliceOrSingleValue: sliceorsinglevalue.go. [enc] and [dec] are json.Marshal and
    json.Unmarshal (into a zero value) for the element type. None is the nil slice. *)

(** MarshalJSON: sliceorsinglevalue.go:29-34 *)
Definition marshal_sos {T} (enc : T -> json) (v : option (list T)) : json :=
  match v with
  | None => JNull
  | Some [x] => enc x
  | Some l => JArr (map enc l)
  end.

(** json.Unmarshal into a slice. Used at trustresolver.go:126-140. *)
Fixpoint dec_all {T} (dec : json -> option T) (l : list json) : option (list T) :=
  match l with
  | [] => Some []
  | j :: l' => match dec j, dec_all dec l' with Some x, Some r => Some (x :: r) | _, _ => None end
  end.

(** UnmarshalJSON: sliceorsinglevalue.go:14-26 *)
Definition unmarshal_sos {T} (dec : json -> option T) (j : json) : res (option (list T)) :=
  match dec j with
  | Some t => Ok (Some [t])
  | None => match j with
            | JNull => Ok None
            | JArr l => match dec_all dec l with Some ts => Ok (Some ts) | None => Err end
            | _ => Err
            end
  end.
