(** Specification vocabulary for typed metadata. *)
From Verif Require Import Base GoVal Policy Schema Metadata SpecPolicy.
Local Open Scope string_scope.

(** A metadata struct that JSON decoding can produce: every field holds a value of its
    Go type, and lists of strings hold strings. *)
Definition well_typed_value (t : gty) (v : gval) : Prop :=
  match t with
  | TSlice TStr => exists n l, v = VSlice TStr n (map VStr l)
  | _ => typeof v = Some t
  end.

Definition well_typed (m : emeta) : Prop :=
  Forall (fun fv : frow * gval => well_typed_value (fr_ty (fst fv)) (snd fv)) (em_fields m).

(** An attribute on which list operators make sense: a list of strings, or scope. *)
Definition list_like (r : frow) : Prop :=
  fr_ty r = TSlice TStr \/ (fr_name r = "Scope" /\ fr_ty r = TStr).

(** An operand of [value] or [default] that has the attribute's type. *)
Definition operand_fits (r : frow) (v : gval) : Prop :=
  v = VNil \/
  (typeof v = Some (fr_ty r) /\ is_slice v = false) \/
  (list_like r /\ exists t n l, v = VSlice t n (map VStr l)).

Definition absent_or_null (k : string) (e : entry) : Prop :=
  lookup k e = None \/ lookup k e = Some VNil.

(** The entry [e] is well typed for the attribute [r]. *)
Record fits (r : frow) (e : entry) : Prop := {
  fit_value : forall v, lookup "value" e = Some v -> operand_fits r v;
  fit_default : forall v, lookup "default" e = Some v -> operand_fits r v;
  fit_add : absent_or_null "add" e \/ (list_like r /\ exists v l, lookup "add" e = Some v /\ strs v l);
  fit_subset : absent_or_null "subset_of" e \/ (list_like r /\ exists v l, lookup "subset_of" e = Some v /\ strs v l);
  fit_null : lookup "value" e = Some VNil -> absent_or_null "add" e /\ absent_or_null "default" e;
  fit_default_null : lookup "default" e = Some VNil -> absent_or_null "subset_of" e }.

(** Metadata of one of the entity types the library has a struct for. *)
Definition entity_schemas : list (list frow) := [op_schema; rp_schema; pr_schema; fe_schema].
Definition known_entity (m : emeta) : Prop := In (map fst (em_fields m)) entity_schemas.

(** The attribute with JSON name [t] of [m'] is that of [m]. *)
Definition same_attribute (t : string) (m m' : emeta) : Prop := em_tag t m' = em_tag t m.

(** Whether the attribute with JSON name [t] counts as set. *)
Definition attr_set (t : string) (m : emeta) : bool :=
  match find (fun fv : frow * gval => String.eqb t (fr_tag (fst fv))) (em_fields m) with
  | Some (r, _) => mem (fr_name r) (em_set m)
  | None => false
  end.

(** Attributes of a plain scalar Go type (string, bool, int64). *)
Definition scalar (t : gty) : bool :=
  match t with TStr | TBool | TInt | TFloat => true | _ => false end.
