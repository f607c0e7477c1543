(** What a type filter changes about resolution. *)
From Verif Require Import Base GoVal Policy Schema Metadata Chain Resolver SpecResolver SpecLookup WitnessResolver TypeFilterFacts
  WitnessTypeFilter.
Local Open Scope string_scope.

(** ** C148 Asking for some entity types only hides the others *)

(** Full statement: with a type filter the same chains are found, and their metadata are the
    same for the types asked for. It is false: superiors' constraints on entity types are only
    checked for the types asked for. *)
Theorem C148_refuted : exists w tas types start c,
  types <> [] /\ resolve_valid 5 w tas types start = Done (Ok [c]) /\ 3 <= List.length c /\
  resolve_valid 5 w tas [] start = Done (Ok []).
Proof. exact filter_refuted. Qed.
Print Assumptions C148_refuted.

(** No chain is lost, and the metadata of the chain are the same for the types asked for. *)
Theorem C148_kept_partial : forall fuel fuel' w tas types start cs cs' e r m, types <> [] ->
  resolve_valid fuel w tas [] start = Done (Ok cs) ->
  resolve_valid fuel' w tas types start = Done (Ok cs') ->
  In (e :: r) cs -> chain_metadata (e :: r) = Ok (Some m) ->
  exists m0' m', In (with_metadata e m0' :: r) cs' /\ chain_metadata (with_metadata e m0' :: r) = Ok (Some m') /\ restricted types m m'.
Proof. exact filter_keeps. Qed.
Print Assumptions C148_kept_partial.

Theorem C148_kept_chains_partial : forall fuel fuel' w tas types start cs cs' e r, types <> [] ->
  resolve_chains fuel w tas [] start = Done (Ok cs) ->
  resolve_chains fuel' w tas types start = Done (Ok cs') ->
  In (e :: r) cs ->
  exists m m', st_metadata e = Some m /\ In (with_metadata e (Some m') :: r) cs' /\ restricted types m m'.
Proof. exact filter_keeps_chains. Qed.
Print Assumptions C148_kept_chains_partial.

(** A chain is added only if a superior on it does not allow one of the subject's types. *)
Theorem C148_added_partial : forall fuel fuel' w tas types start cs cs' e' r s,
  resolve_chains fuel w tas [] start = Done (Ok cs) ->
  resolve_chains fuel' w tas types start = Done (Ok cs') ->
  In (e' :: r) cs' -> w_config w [] start = Some s ->
  (forall x c l t, In x r -> st_constraints x = Some c -> co_types c = Some l -> In t (types_of s) -> In t l \/ t = "federation_entity") ->
  exists e m', In (e :: r) cs /\ e' = with_metadata e m'.
Proof. exact filter_adds. Qed.
Print Assumptions C148_added_partial.

Example C148_case :
  let w := net LEAF leaf_two None None [] in
  resolve_valid 5 w tas0 [] LEAF = Done (Ok [chain0 leaf_two None None []]) /\
  resolve_valid 5 w tas0 ["openid_relying_party"] LEAF = Done (Ok [chain0 leaf_rp None None []]) /\
  resolve_chains 5 w tas0 [] LEAF = Done (Ok [chain0 leaf_two None None []]) /\
  resolve_chains 5 w tas0 ["openid_relying_party"] LEAF = Done (Ok [chain0 leaf_rp None None []]) /\
  w_config w [] LEAF = Some leaf_two /\
  (exists m, chain_metadata (chain0 leaf_two None None []) = Ok (Some m) /\
     shown_at m "openid_provider" <> None /\ shown_at m "openid_relying_party" <> None).
Proof. exact filter_case. Qed.
