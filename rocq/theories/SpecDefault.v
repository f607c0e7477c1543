(** Vocabulary for defaults that the same policy entry forbids. *)
From Verif Require Import Base GoVal Policy SpecPolicy.

(** The entry leaves it to its default what an entity gets that states nothing. *)
Record offers_default (s : sentry) (d : list string) : Prop := {
  od_default : se_default s = Some d;
  od_value : se_value s = None;
  od_add : se_add s = None }.

(** The default meets the other restrictions of the entry, for a list attribute (which is
    never one of the strings in one_of) ... *)
Record fitting_list (s : sentry) (d : list string) : Prop := {
  fl_one_of : se_one_of s = None;
  fl_subset_of : opt (se_subset_of s) (fun l => incl d l);
  fl_superset_of : opt (se_superset_of s) (fun l => incl l d) }.
(** ... and for a text attribute. *)
Definition fitting_text (s : sentry) (d : string) : Prop := opt (se_one_of s) (fun l => In d l).
