(** Looking up the metadata of one entity type: metadata.go:316-360. *)
From Verif Require Import Base GoVal Policy Schema Metadata.
Local Open Scope string_scope.

(** FindEntityMetadata: metadata.go:318-360, called with the caller's object [target].
    Result: whether the call returns nil as its error, and the caller's object afterwards.
    - The loop over the struct fields (lines 323-344) compares each JSON tag with the
      requested type. A field that is set ends the call: line 341 assigns it to the
      function's own parameter, so the caller's object stays as it is.
    - The Extra map is a struct field as well, with tag "-"; [alloc] says whether the map
      is non-nil.
    - [fill j target]: json.Marshal of the additional type's decoded value followed by
      json.Unmarshal into the caller's object (lines 354-359): success, and the object
      afterwards. *)
Definition find_metadata {T} (fill : gval -> T -> bool * T) (m : metadata) (alloc : bool)
  (t : string) (target : T) : bool * T :=
  match typed_field m t with
  | Some _ => (true, target)
  | None =>
      if String.eqb t "-" && alloc then (true, target)
      else match lookup t (md_extra m) with
           | None => (false, target)
           | Some j => fill j target
           end
  end.
