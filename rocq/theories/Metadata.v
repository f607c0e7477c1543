(** Typed metadata, its JSON and msgpack "was set" bookkeeping, and the
    application of policies: metadata.go, metadata_generated.go, and
    MergeMetadataPolicies of metadataPolicy.go. *)
From Verif Require Import Base GoVal Policy Schema.
Local Open Scope string_scope.

(** ** Typed metadata of one entity type *)

(** A metadata struct: the values of the fields of its schema in declaration order
    (the Extra map is the row with tag "-") and the keys of the unexported wasSet
    map that are true (a nil map is the empty list). Used at metadata_generated.go:14-33. *)
Record emeta := EMeta { em_fields : list (frow * gval); em_set : list string }.

Definition em_get (name : string) (m : emeta) : option gval :=
  match find (fun fv => String.eqb name (fr_name (fst fv))) (em_fields m) with
  | Some fv => Some (snd fv) | None => None end.

Definition em_tag (tag : string) (m : emeta) : option gval :=
  match find (fun fv => String.eqb tag (fr_tag (fst fv))) (em_fields m) with
  | Some fv => Some (snd fv) | None => None end.

Definition zero_meta (sch : list frow) : emeta :=
  EMeta (map (fun r => (r, zero_of (fr_ty r))) sch) [].

(** reflect.Value.Set / SetZero in applyPolicy (metadata.go:306-310): assigning a
    value whose type is not the field type panics. *)
Definition assign (t : gty) (v : gval) : res gval :=
  match typeof v with
  | None => Ok (zero_of t)
  | Some t' => if gty_eqb t t' then Ok v else Panic
  end.

Definition str_of (v : gval) : string := match v with VStr s => s | _ => "" end.

(** The Scope special case: metadata.go:300-305 *)
Definition scope_fix (name : string) (v : gval) : gval :=
  if String.eqb name "Scope" then
    match v with
    | VSlice TStr _ l => VStr (String.concat " " (map str_of l))
    | _ => v
    end
  else v.

(** One struct field in applyPolicy: metadata.go:284-311 *)
Definition apply_field (ws : list string) (p : policy) (fv : frow * gval) : res (frow * gval) :=
  let '(r, v) := fv in
  match lookup (fr_tag r) p with
  | None => Ok (r, v)
  | Some e =>
      v' <- apply_to e v (mem (fr_name r) ws) ;;
      v'' <- assign (fr_ty r) (scope_fix (fr_name r) v') ;;
      Ok (r, v'')
  end.

(** applyPolicy on a pointer to a metadata struct: metadata.go:275-314. wasSet is
    left as it is. *)
Definition apply_policy (m : emeta) (p : policy) : res emeta :=
  fs <- map_res (apply_field (em_set m) p) (em_fields m) ;; Ok (EMeta fs (em_set m)).

(** ** Metadata and policies of all entity types *)

(** Metadata: metadata.go:14-23 (nil pointers are None) *)
Record metadata := Metadata {
  md_op : option emeta; md_rp : option emeta; md_as : option emeta;
  md_oc : option emeta; md_pr : option emeta; md_fe : option emeta;
  md_extra : smap gval }.

(** MetadataPolicies: metadataPolicy.go:14-23 *)
Record policies := Policies {
  mp_op : gpolicy; mp_rp : gpolicy; mp_as : gpolicy;
  mp_oc : gpolicy; mp_pr : gpolicy; mp_fe : gpolicy;
  mp_extra : smap gpolicy }.

Definition empty_metadata : metadata := Metadata None None None None None None [].

(** One typed field in Metadata.ApplyPolicy: metadata.go:222-248 *)
Definition apply_one (m : option emeta) (p : gpolicy) : res (option emeta) :=
  match p, m with
  | None, _ => Ok m
  | Some _, None => Ok None
  | Some p, Some em => r <- apply_policy em p ;; Ok (Some r)
  end.

(** One additional entity type: metadata.go:251-270. applyPolicy calls
    reflect.Value.Elem on the decoded JSON value, which is never a pointer: panic,
    unless the policy is nil (metadata.go:276). *)
Definition apply_extra (p : smap gpolicy) (kv : string * gval) : res (string * gval) :=
  match lookup (fst kv) p with
  | None => Ok kv
  | Some None => Ok kv
  | Some (Some _) => Panic
  end.

(** Metadata.ApplyPolicy: metadata.go:215-273 *)
Definition md_apply (m : metadata) (p : option policies) : res metadata :=
  match p with
  | None => Ok m
  | Some p =>
      op' <- apply_one (md_op m) (mp_op p) ;;
      rp' <- apply_one (md_rp m) (mp_rp p) ;;
      as' <- apply_one (md_as m) (mp_as p) ;;
      oc' <- apply_one (md_oc m) (mp_oc p) ;;
      pr' <- apply_one (md_pr m) (mp_pr p) ;;
      fe' <- apply_one (md_fe m) (mp_fe p) ;;
      ex' <- map_res (apply_extra (mp_extra p)) (md_extra m) ;;
      Ok (Metadata op' rp' as' oc' pr' fe' ex')
  end.

(** The per-type collection of MergeMetadataPolicies: metadataPolicy.go:98-111 *)
Definition present (ps : list (option policies)) : list policies :=
  flat_map (fun p => match p with Some x => [x] | None => [] end) ps.

Fixpoint dedup (l : list string) : list string :=
  match l with
  | [] => []
  | x :: l' => x :: filter (fun y => negb (String.eqb x y)) (dedup l')
  end.

Definition extra_keys (ps : list policies) : list string :=
  dedup (flat_map (fun p => keys (mp_extra p)) ps).

Definition extra_entries (k : string) (ps : list policies) : list gpolicy :=
  flat_map (fun p => match lookup k (mp_extra p) with Some q => [q] | None => [] end) ps.

(** MergeMetadataPolicies: metadataPolicy.go:90-152 *)
Definition merge_policies (ps : list (option policies)) : res policies :=
  let ps := present ps in
  op <- combine_policies (map mp_op ps) ;;
  rp <- combine_policies (map mp_rp ps) ;;
  as_ <- combine_policies (map mp_as ps) ;;
  oc <- combine_policies (map mp_oc ps) ;;
  pr <- combine_policies (map mp_pr ps) ;;
  fe <- combine_policies (map mp_fe ps) ;;
  ex <- map_res (fun k => c <- combine_policies (extra_entries k ps) ;; Ok (k, c)) (extra_keys ps) ;;
  Ok (Policies op rp as_ oc pr fe ex).

(** ** JSON decoding of typed metadata and the wasSet map *)

(** Decoding one JSON value (as produced by encoding/json into [any]: VNil, VBool,
    VFloat, VStr, []any, map[string]any) into a struct field of the given type.
    [Ok None]: JSON null, the pointer/slice/map stays nil.
    JSON null inside a []string leaves the element at its zero value "".
    Used at metadata_generated.go:55-155. *)
Fixpoint decode_value (t : gty) (j : gval) {struct t} : res gval :=
  match t with
  | TAny => Ok j
  | TBool => match j with VBool _ => Ok j | VNil => Ok (VBool false) | _ => Err end
  | TInt => match j with VFloat z => Ok (VInt z) | VNil => Ok (VInt 0) | _ => Err end
  | TFloat => match j with VFloat _ => Ok j | VNil => Ok (VFloat 0) | _ => Err end
  | TStr => match j with VStr _ => Ok j | VNil => Ok (VStr "") | _ => Err end
  | TJwks => match j with VMap _ _ _ => Ok (VJwks (Some j)) | VNil => Ok (VJwks None) | _ => Err end
  | TMap t' =>
      match j with
      | VMap _ _ kv =>
          kv' <- map_res (fun x => y <- decode_value t' (snd x) ;; Ok (fst x, y)) kv ;;
          Ok (VMap t' false kv')
      | VNil => Ok (VMap t' true [])
      | _ => Err
      end
  | TSlice t' =>
      match j with
      | VSlice _ _ l => l' <- map_res (decode_value t') l ;; Ok (VSlice t' false l')
      | VNil => Ok (VSlice t' true [])
      | _ => Err
      end
  end.

(** Decoding one field of the ...WithPtrs struct and copying it by fromPointers
    (metadata_generated.go:75-106): value and whether wasSet gets the field name.
    Keys are matched exactly; encoding/json's case-insensitive fallback is not
    modelled. *)
Definition decode_field (obj : smap gval) (r : frow) : res (gval * bool) :=
  if String.eqb (fr_tag r) "-" then Ok (zero_of (fr_ty r), false) (* Extra, filled below *)
  else match lookup (fr_tag r) obj with
       | None => Ok (zero_of (fr_ty r), false)
       | Some j => v <- decode_value (fr_ty r) j ;; Ok (v, negb (is_nil j))
       end.

(** The additional claims: unmarshalWithExtra, entitystatement.go:136-152:
    all keys that are not field tags; nil if there are none. *)
Definition extra_of (sch : list frow) (obj : smap gval) : smap gval :=
  filter (fun kv => negb (mem (fst kv) (filter (fun t => negb (String.eqb t "-")) (map fr_tag sch)))) obj.

(** UnmarshalJSON of a metadata struct: metadata_generated.go:75-130 *)
Definition decode_meta (sch : list frow) (obj : smap gval) : res emeta :=
  vs <- map_res (decode_field obj) sch ;;
  let ex := extra_of sch obj in
  let exv := VMap TAny (match ex with [] => true | _ => false end) ex in
  let rows := combine sch vs in
  let fields := map (fun rv : frow * (gval * bool) =>
                       let '(r, (v, _)) := rv in
                       (r, if String.eqb (fr_tag r) "-" then exv else v)) rows in
  let setnames := flat_map (fun rv : frow * (gval * bool) =>
                       let '(r, (_, s)) := rv in
                       if String.eqb (fr_tag r) "-"
                       then (match ex with [] => [] | _ => [fr_name r] end)
                       else if s then [fr_name r] else []) rows in
  Ok (EMeta fields (setnames ++ keys ex)).

(** ** The msgpack round trip through the cache *)

(** Whether a ...WithPtrs field is non-nil after decoding the msgpack encoding of a
    value (metadata_generated.go:133-152): string, bool and int64 are always
    encoded (no omitempty), hence decode to non-nil pointers; nil slices, maps and
    pointers are encoded as nil and stay nil. *)
Definition msgpack_nonnil (v : gval) : bool :=
  match v with
  | VSlice _ n _ | VMap _ n _ => negb n
  | VJwks None => false
  | VNil => false
  | _ => true
  end.

Definition extra_value (m : emeta) : smap gval :=
  match em_get "Extra" m with Some (VMap _ _ kv) => kv | _ => [] end.

(** Encoding and decoding a metadata struct that has UnmarshalMsgpack
    (FederationEntityMetadata, OpenIDRelyingPartyMetadata, OpenIDProviderMetadata,
    OAuthProtectedResourceMetadata): the values are kept, wasSet is rebuilt by
    fromPointers. Used at metadata_generated.go:132-155. *)
Definition msgpack_roundtrip (m : emeta) : emeta :=
  EMeta (em_fields m)
        (flat_map (fun fv => if msgpack_nonnil (snd fv) then [fr_name (fst fv)] else []) (em_fields m)
         ++ keys (extra_value m)).

(** OAuthClientMetadata and OAuthAuthorizationServerMetadata (metadata.go:363,367)
    are defined types without UnmarshalMsgpack, so msgpack fills the exported
    fields by reflection and wasSet stays nil. *)
Definition msgpack_roundtrip_alias (m : emeta) : emeta := EMeta (em_fields m) [].

Definition md_msgpack (m : metadata) : metadata :=
  Metadata (option_map msgpack_roundtrip (md_op m)) (option_map msgpack_roundtrip (md_rp m))
           (option_map msgpack_roundtrip_alias (md_as m)) (option_map msgpack_roundtrip_alias (md_oc m))
           (option_map msgpack_roundtrip (md_pr m)) (option_map msgpack_roundtrip (md_fe m))
           (md_extra m).

(** ** Other helpers on Metadata *)

(** GuessEntityTypes: metadata.go:31-44 *)
Definition guess_entity_types (m : metadata) : list string :=
  (match md_op m with Some _ => ["openid_provider"] | None => [] end) ++
  (match md_rp m with Some _ => ["openid_relying_party"] | None => [] end) ++
  (match md_as m with Some _ => ["oauth_authorization_server"] | None => [] end) ++
  (match md_oc m with Some _ => ["oauth_client"] | None => [] end) ++
  (match md_pr m with Some _ => ["oauth_resource"] | None => [] end) ++
  (match md_fe m with Some _ => ["federation_entity"] | None => [] end).

Definition keep {A} (types : list string) (t : string) (x : option A) : option A :=
  if mem t types then x else None.

(** NilAllExceptByTag applied to a *Metadata: internal/utils/structs.go:11-52.
    (A nil Extra map has tag "-" and is set to its zero value nil.) *)
Definition nil_all_except (m : metadata) (types : list string) : metadata :=
  Metadata (keep types "openid_provider" (md_op m))
           (keep types "openid_relying_party" (md_rp m))
           (keep types "oauth_authorization_server" (md_as m))
           (keep types "oauth_client" (md_oc m))
           (keep types "oauth_resource" (md_pr m))
           (keep types "federation_entity" (md_fe m))
           (filter (fun kv => mem (fst kv) types) (md_extra m)).

(** The typed fields by entity type, as FindEntityMetadata compares them with the JSON tags:
    metadata.go:14-23,323-344 (the function is in Lookup.v). *)
Definition typed_field (m : metadata) (t : string) : option emeta :=
  if String.eqb t "openid_provider" then md_op m
  else if String.eqb t "openid_relying_party" then md_rp m
  else if String.eqb t "oauth_authorization_server" then md_as m
  else if String.eqb t "oauth_client" then md_oc m
  else if String.eqb t "oauth_resource" then md_pr m
  else if String.eqb t "federation_entity" then md_fe m
  else None.
