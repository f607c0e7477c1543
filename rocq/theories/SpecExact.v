(** Specification vocabulary for the theorems that say exactly when something holds. *)
From Verif Require Import Base GoVal Policy Schema Metadata Chain Resolver SpecPolicy SpecMetadata SpecResolver SpecChain.
Local Open Scope string_scope.

(** [c] is a trust chain for [start]: its own configuration alone, if it is itself an anchor
    or names no superiors, or the statements along a path of superiors to an anchor on which
    all signatures verify. *)
Definition trust_chain (w : world) (tas : list anchor) (types : list string) (start : string) (c : chain) : Prop :=
  exists e, start_config w types start e /\
    ((c = [e] /\ (In (st_iss e) (anchor_ids tas) \/ st_hints e = [])) \/
     (exists h hs, path_up w tas [] e [] (h :: hs) /\ signed_up w tas e None (h :: hs) /\ c = chain_along e (h :: hs))).

(** The policies of all statements of the chain for the additional entity type [k], from the
    subject upwards. *)
Definition additional_policies (k : string) (c : chain) : list gpolicy :=
  flat_map (fun s => match st_policy s with
                     | Some p => match lookup k (mp_extra p) with Some q => [q] | None => [] end
                     | None => []
                     end) c.

(** The additional entity types do not stand in the way: their policies can be combined, and
    there is none for a type the subject has metadata of. *)
Definition additional_types_ok (c : chain) : Prop :=
  forall k, exists p, combine_policies (additional_policies k c) = Ok p /\
    (In k (keys (md_extra (leaf_metadata c))) -> p = None).

(** Everything that makes a chain through superiors trustworthy. *)
Record authentic (w : world) (tas : list anchor) (c : chain) : Prop := {
  au_length : 3 <= List.length c;
  au_signed : signed_chain w tas c;
  au_anchored : ends_at_anchor tas c;
  au_linked : linked c;
  au_times : forall s r x, c = s :: r -> In x r -> exists p b, valid_at (w_now w p b) x }.

(** ** The resolved value of a list attribute *)

(** Two operands where either may be missing. *)
Definition both {A} (f : A -> A -> A) (x y : option A) : option A :=
  match x, y with
  | Some a, Some b => Some (f a b)
  | Some a, None => Some a
  | None, y => y
  end.

(** Two policy entries for one attribute taken together, following the merge column of the
    operator table: value and default of the first (the second must agree, see
    [same_value]), the union for add and superset_of, the intersection for one_of and
    subset_of, and essential if either says so. *)
Definition merged (a b : sentry) : sentry :=
  SEntry (both (fun x _ => x) (se_value a) (se_value b))
         (both add_missing (se_add a) (se_add b))
         (both (fun x _ => x) (se_default a) (se_default b))
         (both keep_allowed (se_one_of a) (se_one_of b))
         (both keep_allowed (se_subset_of a) (se_subset_of b))
         (both add_missing (se_superset_of a) (se_superset_of b))
         (both orb (se_essential a) (se_essential b)).

(** All the entries of a chain's policies for one attribute taken together. *)
Definition all_merged (ss : list (option sentry)) : option sentry := fold_left (both merged) ss None.

(** The policy [p] has the entry [s] for the list attribute [k] ([None]: it has none), with
    arrays as operands of value and default and without repeated elements in an operand. *)
Definition list_entry (k : string) (p : gpolicy) (s : option sentry) : Prop :=
  policy_denotes k p s /\
  (forall e, lookup k (pol p) = Some e -> list_operands e) /\
  (forall x, s = Some x -> opt (se_add x) (@NoDup string) /\ opt (se_superset_of x) (@NoDup string)).

(** What the operator table makes of the attribute: unchanged if no policy mentions it. *)
Definition table_result (f : option sentry) (cur : option (list string)) : res (option (list string)) :=
  match f with Some s => spec_apply s cur | None => Ok cur end.

(** The forms of a combined entry for which an absent attribute is treated as the table says:
    a null value stands alone, and an essential attribute is there or is supplied. *)
Definition table_form (f : option sentry) (set : bool) : Prop :=
  match f with
  | None => True
  | Some s =>
      (se_value s = Some None -> se_add s = None /\ se_default s = None) /\
      (se_essential s = Some true ->
         set = true \/ se_value s <> None \/ se_add s <> None \/ se_default s <> None)
  end.

(** Two value operands that prescribe the same: both null, or the same elements. *)
Definition same_value (x y : option (list string)) : Prop :=
  match x, y with
  | Some l, Some l' => same_elements l l'
  | None, None => True
  | _, _ => False
  end.
