(** Vocabulary for the exact effect of a policy entry on a list attribute. *)
From Verif Require Import Base GoVal Policy SpecPolicy.

(** The entry says that the attribute is essential and nothing else. *)
Record only_essential (s : sentry) : Prop := {
  oe_essential : se_essential s = Some true;
  oe_value : se_value s = None;
  oe_add : se_add s = None;
  oe_default : se_default s = None;
  oe_one_of : se_one_of s = None;
  oe_subset_of : se_subset_of s = None;
  oe_superset_of : se_superset_of s = None }.

(** The Go outcome is the specified one, as a set of strings. *)
Definition set_outcome (r : res gval) (o : res (option (list string))) : Prop :=
  match r, o with
  | Err, Err => True
  | Ok v, Ok None => v = VNil \/ v = VSlice TStr true []
  | Ok v, Ok (Some l) => exists isnil l', v = VSlice TStr isnil (map VStr l') /\ same_elements l' l
  | _, _ => False
  end.
