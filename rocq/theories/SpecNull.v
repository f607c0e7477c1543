(** Vocabulary for null operands of policies. *)
From Verif Require Import Base GoVal Policy Schema Metadata SpecPolicy SpecMetadata.
Local Open Scope string_scope.

(** All operands have the attribute's type, or are null. *)
Record typed (r : frow) (e : entry) : Prop := {
  ty_value : forall v, lookup "value" e = Some v -> operand_fits r v;
  ty_default : forall v, lookup "default" e = Some v -> operand_fits r v;
  ty_add : absent_or_null "add" e \/ (list_like r /\ exists v l, lookup "add" e = Some v /\ strs v l);
  ty_subset : absent_or_null "subset_of" e \/ (list_like r /\ exists v l, lookup "subset_of" e = Some v /\ strs v l) }.

(** {"value": null, "add": []}, where no element is demanded either. The empty list is a []any,
    as decoding JSON makes it. *)
Definition null_and_nothing (e : entry) : Prop :=
  lookup "value" e = Some VNil /\ (exists n, lookup "add" e = Some (VSlice TAny n [])) /\
  (absent_or_null "superset_of" e \/ exists t n, lookup "superset_of" e = Some (VSlice t n [])).

(** {"default": null, "subset_of": [...]}, and the value is neither replaced nor extended. *)
Definition null_default_subset (e : entry) : Prop :=
  lookup "value" e = None /\ absent_or_null "add" e /\ lookup "default" e = Some VNil /\
  exists v, lookup "subset_of" e = Some v /\ v <> VNil.

(** The entries that make applying them crash although they pass verification. *)
Definition crashes (e : entry) (set : bool) : Prop :=
  null_and_nothing e \/ (null_default_subset e /\ set = false).
