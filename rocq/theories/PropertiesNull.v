(** Which policies that pass verification crash the caller. *)
From Verif Require Import Base GoVal Policy Schema Metadata Chain SpecPolicy SpecMetadata SpecChain SpecResolver Resolver SpecExact
  SpecExactList SpecNull NullFacts WitnessPolicy WitnessNull.
From Verif Require Import GoVal.
Local Open Scope nat_scope.
Local Open Scope string_scope.

(** ** C03 Applying a policy never crashes the caller *)

(** An entry whose operands have the attribute's type, or are null, and that passes verification
    crashes if and only if it is {"value": null, "add": []}, with nothing demanded by
    superset_of, or it is {"default": null, "subset_of": [...]} and the attribute is absent. *)
Theorem C03_exact : forall sch obj m r e,
  In sch entity_schemas -> decode_meta sch obj = Ok m -> In r sch -> typed r e -> verify_entry e = Ok tt ->
  (apply_policy m [(fr_tag r, e)] = Panic <-> crashes e (attr_set (fr_tag r) m)).
Proof. exact decode_crash_one. Qed.
Print Assumptions C03_exact.

(** The same for whole policies: a crash is due to such an entry, and a policy with such an
    entry never gives metadata. *)
Theorem C03_exact_policy : forall sch obj m p,
  In sch entity_schemas -> decode_meta sch obj = Ok m ->
  (forall r e, In r sch -> lookup (fr_tag r) p = Some e -> typed r e /\ verify_entry e = Ok tt) ->
  (apply_policy m p = Panic ->
     exists r e, In r sch /\ lookup (fr_tag r) p = Some e /\ crashes e (attr_set (fr_tag r) m)) /\
  (forall r e m', In r sch -> lookup (fr_tag r) p = Some e -> crashes e (attr_set (fr_tag r) m) ->
     apply_policy m p <> Ok m').
Proof. exact decode_crash. Qed.
Print Assumptions C03_exact_policy.

Example C03_exact_case : exists m m0,
  decode_meta rp_schema rp_contacts = Ok m /\ decode_meta rp_schema rp_plain = Ok m0 /\
  In contacts_row rp_schema /\ attr_set "contacts" m = true /\ attr_set "contacts" m0 = false /\
  apply_policy m [("contacts", n_nothing)] = Panic /\
  apply_policy m0 [("contacts", n_default)] = Panic /\
  exists m', apply_policy m [("contacts", n_default)] = Ok m'.
Proof. exact c03_null_case. Qed.

Example C03_exact_typed :
  typed contacts_row n_nothing /\ verify_entry n_nothing = Ok tt /\ null_and_nothing n_nothing /\
  typed contacts_row n_default /\ verify_entry n_default = Ok tt /\ null_default_subset n_default.
Proof. exact n_typed. Qed.

(** One such policy of a superior, valid by the library's own check, crashes the resolution of
    every subject below it. *)
Theorem C03_chain_refuted : exists c,
  Forall (fun p => verify_policy (pol p) = Ok tt) (policies_of mp_rp c) /\
  md_rp (leaf_metadata c) <> None /\ chain_metadata c = Panic.
Proof. exact (ex_intro _ chain_null chain_null_crashes). Qed.
Print Assumptions C03_chain_refuted.
