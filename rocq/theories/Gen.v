(** The generator of the metadata types: internal/generators/metadata.go, which reads
    metadata_input.go and writes metadata_generated.go. Go source is represented by its
    declarations: the parsed file is a list of type declarations, and the written file the
    list of the types in it, each with its rows (field name, type as text, tag as text).
    The bodies of the generated methods do not depend on the fields; they are modelled from
    metadata_generated.go in Metadata.v and Statement.v. *)
From Coq Require Import Ascii.
From Verif Require Import Base.
Local Open Scope nat_scope.
Local Open Scope string_scope.

(** Type expressions (go/ast): a name, a name qualified by a package, pointer, slice or array
    with its length, map, and any other, by its text.
    internal/generators/metadata.go:164-179 *)
Inductive texpr :=
| EName (n : string)
| EQual (pkg n : string)
| EStar (e : texpr)
| EArray (len : option string) (e : texpr)
| EMap (k v : texpr)
| EOther (text : string).

(** A field declaration (ast.Field): several names share type and tag; an embedded field has
    none. internal/generators/metadata.go:110-128 *)
Record fdecl := FDecl { fd_names : list string; fd_type : texpr; fd_tag : option string }.
(** A type declaration; None if it is not a struct. internal/generators/metadata.go:34-56 *)
Record tdecl := TDecl { td_name : string; td_struct : option (list fdecl) }.
(** The parsed input: the name in its package clause and its declarations.
    internal/generators/metadata.go:22-31 *)
Record gosrc := GoSrc { gs_package : string; gs_types : list tdecl }.

(** fieldTypeAsString: internal/generators/metadata.go:164-179. The length of an array is
    not written; other types give the empty text. *)
Fixpoint field_type (e : texpr) : string :=
  match e with
  | EName n => n
  | EQual p n => p ++ "." ++ n
  | EStar e' => "*" ++ field_type e'
  | EArray _ e' => "[]" ++ field_type e'
  | EMap k v => "map[" ++ field_type k ++ "]" ++ field_type v
  | EOther _ => ""
  end.
(** fieldTypeAsPtrString: internal/generators/metadata.go:182-197 *)
Definition field_ptr_type (e : texpr) : string :=
  match e with
  | EName n => "*" ++ n
  | EQual p n => p ++ "." ++ n
  | EStar e' => "*" ++ field_type e'
  | EArray _ e' => "[]" ++ field_type e'
  | EMap k v => "map[" ++ field_type k ++ "]" ++ field_type v
  | EOther _ => ""
  end.

(** strings.Contains. Used at internal/generators/metadata.go:133. *)
Fixpoint has_part (x s : string) : bool :=
  (String.prefix x s || match s with "" => false | String _ s' => has_part x s' end)%bool.

(** A line of a generated struct: name, type, tag. internal/generators/metadata.go:114-125 *)
Record row := Row { rw_name : string; rw_type : string; rw_tag : option string }.

(** The inner loops of generateCombinedStruct over the names of a field: seenFields and the
    rows of the two structs so far. internal/generators/metadata.go:111-127 and 132-156. *)
Definition add_name (skip : string -> bool) (e : texpr) (tag : option string)
           (st : list string * (list row * list row)) (n : string) : list string * (list row * list row) :=
  let '(seen, (rows, ptrs)) := st in
  if skip n then st
  else if mem n seen then st
  else (n :: seen, ((rows ++ [Row n (field_type e) tag])%list, (ptrs ++ [Row n (field_ptr_type e) tag])%list)).
Definition add_field (skip : string -> bool) (st : list string * (list row * list row)) (f : fdecl) :=
  fold_left (add_name skip (fd_type f) (fd_tag f)) (fd_names f) st.
(** generateCombinedStruct: internal/generators/metadata.go:96-161 (without the line for the
    unexported field wasSet) *)
Definition combined (name : string) (own common : list fdecl) : list row * list row :=
  let st := fold_left (add_field (fun _ => false)) own ([], ([], [])) in
  snd (fold_left (add_field (fun n => (String.eqb name "FederationEntityMetadata" && has_part "JWKS" n)%bool)) common st).

(** strings.ToUpper on the first byte (letters of ASCII): internal/generators/metadata.go:88 *)
Definition upper (c : ascii) : ascii :=
  let n := nat_of_ascii c in if (Nat.leb 97 n && Nat.leb n 122)%bool then ascii_of_nat (n - 32) else c.
Definition capital (s : string) : string := match s with "" => "" | String c s' => String (upper c) s' end.

(** The entity types passed to applyPolicy: internal/generators/metadata.go:12-19 *)
Definition entity_types : smap string :=
  [("OpenIDProviderMetadata", "openid_provider"); ("OpenIDRelyingPartyMetadata", "openid_relying_party");
   ("OAuthAuthorizationServerMetadata", "oauth_authorization_server"); ("OAuthClientMetadata", "oauth_client");
   ("OAuthProtectedResourceMetadata", "oauth_resource"); ("FederationEntityMetadata", "federation_entity")].

(** What is written for one type, and the file. internal/generators/metadata.go:86-91, 69-83 *)
Record gtype := GType { gt_name : string; gt_rows : list row; gt_ptr_name : string; gt_ptrs : list row; gt_entity : string }.
Record gofile := GoFile { gf_package : string; gf_types : list gtype }.
Definition gen_type (common : list fdecl) (nd : string * list fdecl) : gtype :=
  let name := capital (fst nd) in
  let '(rows, ptrs) := combined name (snd nd) common in
  GType name rows (fst nd ++ "WithPtrs") ptrs (match lookup name entity_types with Some t => t | None => "" end).

(** The map of the other structs: a later declaration of the same name replaces an earlier
    one. internal/generators/metadata.go:30-56 *)
Fixpoint put (k : string) (v : list fdecl) (m : smap (list fdecl)) : smap (list fdecl) :=
  match m with
  | [] => [(k, v)]
  | (k', v') :: m' => if String.eqb k k' then (k, v) :: m' else (k', v') :: put k v m'
  end.
Definition read_decl (st : option (list fdecl) * smap (list fdecl)) (d : tdecl) :=
  match td_struct d with
  | None => st
  | Some fs => if String.eqb (td_name d) "commonMetadata" then (Some fs, snd st) else (fst st, put (td_name d) fs (snd st))
  end.
(** main: internal/generators/metadata.go:21-93. [order] is the order in which the map is
    iterated, a permutation of it. The package clause is part of the header. *)
Definition generate (order : smap (list fdecl) -> smap (list fdecl)) (src : gosrc) : res gofile :=
  let '(common, others) := fold_left read_decl (gs_types src) (None, []) in
  match common with
  | None => Err
  | Some c => Ok (GoFile "pkg" (map (gen_type c) (order others)))
  end.

(** fromPointers for one field, as far as reflect panics: metadata_generated.go:75-106.
    [kinds] gives the kind of a named type (reflect.Kind up to what matters here). IsNil
    panics for values that cannot be nil, Set for values of another type. *)
Inductive kind := KPointer | KNilable | KPlain.
Definition kind_of (kinds : string -> kind) (e : texpr) : kind :=
  match e with
  | EName n => kinds n
  | EQual p n => kinds (p ++ "." ++ n)
  | EStar _ => KPointer
  | EArray None _ => KNilable
  | EArray (Some _) _ => KPlain
  | EMap _ _ => KNilable
  | EOther _ => KPlain
  end.
Definition texpr_dec (a b : texpr) : {a = b} + {a <> b}.
Proof. repeat decide equality. Defined.
Definition from_pointer (kinds : string -> kind) (ptr orig : texpr) : res unit :=
  match kind_of kinds ptr with
  | KPlain => Panic
  | KPointer =>
      match kind_of kinds orig with
      | KPointer => if texpr_dec ptr orig then Ok tt else Panic
      | _ => match ptr with
             | EStar e => if texpr_dec e orig then Ok tt else Panic
             | _ => Panic
             end
      end
  | KNilable => if texpr_dec ptr orig then Ok tt else Panic
  end.
