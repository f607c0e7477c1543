(** Specification vocabulary for acceptable policy entries and for operators and verifiers
    registered by the application. *)
From Verif Require Import Base GoVal Policy SpecPolicy Custom.
Local Open Scope string_scope.

(** ** Which entries Verify accepts *)

(** The operands agree with each other, operator pair by operator pair. *)
Record consistent (s : sentry) : Prop := {
  cn_one_of_alone : se_one_of s <> None -> se_add s = None /\ se_subset_of s = None /\ se_superset_of s = None;
  cn_one_of_some : se_one_of s <> Some [];
  cn_superset_subset : opt (se_superset_of s) (fun p => opt (se_subset_of s) (fun q => incl p q));
  cn_add_subset : opt (se_add s) (fun p => opt (se_subset_of s) (fun q => incl p q));
  cn_add_value : forall l, se_value s = Some (Some l) -> opt (se_add s) (fun p => incl p l);
  cn_value_subset : forall l, se_value s = Some (Some l) -> opt (se_subset_of s) (fun q => incl l q);
  cn_null : se_value s = Some None ->
      (se_add s = None \/ se_add s = Some []) /\ se_subset_of s = None /\ se_default s = None }.

(** The entries on which Verify panics: null as value beside subset_of, with no earlier
    inconsistency. *)
Definition null_beside_subset (s : sentry) : Prop :=
  se_value s = Some None /\ (exists q, se_subset_of s = Some q /\ opt (se_superset_of s) (fun p => incl p q)) /\
  se_one_of s = None /\ (se_add s = None \/ se_add s = Some []).

(** Some attribute value meets all the restrictions of the entry. *)
Definition satisfiable (s : sentry) : Prop := exists v, respects s v /\ respects_essential s v.

(** The attribute may be left out although its value is fixed to [l]: it is not essential, and
    [l] is what an absent attribute looks like (no strings, or the empty string). *)
Definition absent_form (s : sentry) (l : list string) : Prop :=
  se_essential s <> Some true /\ (l = [] \/ same_elements l [""]).

(** What Verify does not look at: a fixed value is one of one_of's and contains superset_of's,
    and an essential attribute with value null meets no one_of and no non-empty superset_of. *)
Record value_fits (s : sentry) : Prop := {
  fits_one_of : forall l, se_value s = Some (Some l) ->
      opt (se_one_of s) (fun q => (exists x, In x q /\ same_elements l [x]) \/ absent_form s l);
  fits_superset : forall l, se_value s = Some (Some l) -> opt (se_superset_of s) (fun q => incl q l \/ absent_form s l);
  fits_null : se_value s = Some None -> se_essential s = Some true ->
      se_one_of s = None /\ (se_superset_of s = None \/ se_superset_of s = Some []) }.

(** ** Registered operators *)

(** The operators of an entry in the order of OperatorOrder, with their operands. *)
Definition effective (r : registry) (e : entry) : list (string * gval) :=
  flat_map (fun n => match lookup n e with Some pv => [(n, pv)] | None => [] end) (rg_order r).

(** One operator after the other. *)
Fixpoint in_turn (r : registry) (essential : bool) (ops : list (string * gval)) (value : gval) (set : bool)
         (value' : gval) (set' : bool) : Prop :=
  match ops with
  | [] => value' = value /\ set' = set
  | (n, pv) :: ops' => exists o v s, lookup n (rg_ops r) = Some o /\ on_apply o value set pv essential = Ok (v, s) /\
      in_turn r essential ops' v s value' set'
  end.

(** Every operator both entries have is registered. *)
Definition shared_registered (r : registry) (a b : entry) : Prop :=
  forall k, In k (keys a) -> In k (keys b) -> lookup k (rg_ops r) <> None.

(** What the merged entry has for the operator [k]. *)
Definition r_merged_at (r : registry) (a b m : entry) (k : string) : Prop :=
  match lookup k a, lookup k b with
  | Some x, Some y => exists o c, lookup k (rg_ops r) = Some o /\ on_merge o x y = Ok c /\ lookup k m = Some c
  | Some x, None => lookup k m = Some x
  | None, y => lookup k m = y
  end.

(** Every registered operator of the entry lists every other operator of the entry. *)
Definition mutually_listed (r : registry) (e : entry) : Prop :=
  forall n o mc k, In n (keys e) -> lookup n (rg_ops r) = Some o -> on_combine o = Some mc ->
    In k (keys e) -> k <> on_name o -> In k mc.

(** The registry with one operator more, placed between [l1] and [l2] in the order. *)
Definition with_operator (r : registry) (o : operator) (l1 l2 : list string) : registry :=
  Registry (insert (on_name o) o (rg_ops r)) (l1 ++ on_name o :: l2)%list (rg_verifiers r).
