(** Specification vocabulary for applying a metadata policy again to metadata it has already
    been applied to. *)
From Verif Require Import Base GoVal Policy Schema Metadata SpecPolicy SpecMetadata.
From Verif Require SpecSingle.
Local Open Scope string_scope.

(** An entry that fits the attribute: a list of strings with operands that are lists of
    strings, or a text or flag with operands of this kind. *)
Definition shaped (r : frow) (e : entry) : Prop :=
  (fr_ty r = TSlice TStr /\ fr_name r <> "Scope" /\
   exists s, denotes e s /\ list_operands e /\ opt (se_add s) (@NoDup string) /\
             (se_value s = Some None -> se_add s = None /\ se_default s = None)) \/
  ((fr_ty r = TStr \/ fr_ty r = TBool) /\ exists s, SpecSingle.states e s).

(** The entry demands the attribute, supplies it by default and restricts it. *)
Definition demanding (e : entry) : Prop :=
  lookup "essential" e = Some (VBool true) /\ lookup "value" e = None /\ lookup "add" e = None /\
  (exists d, lookup "default" e = Some d) /\
  (exists o v, In o ["one_of"; "subset_of"; "superset_of"] /\ lookup o e = Some v).

(** The attributes the policy names have their type and fitting entries, and those that were
    not in the document are empty. *)
Definition plain (m : emeta) (p : policy) : Prop :=
  forall r v e, In (r, v) (em_fields m) -> lookup (fr_tag r) p = Some e ->
    shaped r e /\ well_typed_value (fr_ty r) v /\
    (mem (fr_name r) (em_set m) = false -> v = zero_of (fr_ty r)).

(** The same metadata, where a nil slice and an empty one count as the same. *)
Definition same_list (v w : gval) : Prop :=
  v = w \/ exists t n n' l, v = VSlice t n l /\ w = VSlice t n' l.
Definition same_metadata (m m' : emeta) : Prop :=
  em_set m = em_set m' /\
  Forall2 (fun x y : frow * gval => fst x = fst y /\ same_list (snd x) (snd y)) (em_fields m) (em_fields m').
