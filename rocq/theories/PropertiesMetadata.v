(** Property theorems about looking up and restricting metadata (C69, C70). Each is closed
    by a lemma proved elsewhere; the Example beside it shows a concrete case meeting the
    hypotheses. [..._refuted] gives a counterexample to the full statement of the property,
    [..._partial] the version that holds. *)
From Verif Require Import Base GoVal Policy Schema Metadata Chain Resolver SpecResolver WitnessResolver TrustMark
  WitnessTrustMark Lookup SpecLookup LookupFacts WitnessLookup.
Local Open Scope nat_scope.
Local Open Scope string_scope.

(** ** C69 Entity metadata lookup fills the caller's object *)

(** Asking for an absent type is an error and leaves the object alone. The name "-" is
    excluded if the metadata have a map of additional types: it finds that map itself. *)
Theorem C69_absent_partial : forall T (fill : gval -> T -> bool * T) m alloc t target,
  (t <> "-" \/ alloc = false) -> shown_at m t = None -> find_metadata fill m alloc t target = (false, target).
Proof. exact find_absent. Qed.
Print Assumptions C69_absent_partial.

(** An additional type is decoded into the object. Missing: the types the library has a
    struct for (C69_refuted). *)
Theorem C69_additional_partial : forall T (fill : gval -> T -> bool * T) m alloc t j target,
  (t <> "-" \/ alloc = false) -> shown_at m t = Some (Additional j) -> find_metadata fill m alloc t target = fill j target.
Proof. exact find_additional. Qed.
Print Assumptions C69_additional_partial.

Example C69_case :
  shown_at lookup_md "acme_wallet" = Some (Additional (VMap TAny false [("level", VStr "high")])) /\
  find_metadata fill0 lookup_md true "acme_wallet" VNil = (true, VMap TAny false [("level", VStr "high")]) /\
  shown_at lookup_md "openid_provider" = None /\
  find_metadata fill0 lookup_md true "openid_provider" VNil = (false, VNil).
Proof. exact c69_cases. Qed.

(** For none of the types with a struct is the object ever filled, although the call
    reports success. *)
Theorem C69_known_never_filled : forall T (fill : gval -> T -> bool * T) m alloc t em target,
  shown_at m t = Some (Known em) -> find_metadata fill m alloc t target = (true, target).
Proof. exact find_known. Qed.
Print Assumptions C69_known_never_filled.

Theorem C69_dash_refuted : forall T (fill : gval -> T -> bool * T) m target,
  find_metadata fill m true "-" target = (true, target).
Proof. exact find_dash. Qed.
Print Assumptions C69_dash_refuted.

Theorem C69_refuted : exists (m : metadata) (t : string) (em : emeta),
  shown_at m t = Some (Known em) /\ em_set em <> [] /\
  forall T (fill : gval -> T -> bool * T) alloc target, find_metadata fill m alloc t target = (true, target).
Proof. exact c69_witness. Qed.
Print Assumptions C69_refuted.

(** ** C70 Type filters keep exactly the requested metadata *)

Theorem C70_restricts : forall m types, restricted types m (nil_all_except m types).
Proof. exact restriction. Qed.
Print Assumptions C70_restricts.

Example C70_case : let m' := nil_all_except lookup_md ["acme_wallet"; "federation_entity"] in
  restricted ["acme_wallet"; "federation_entity"] lookup_md m' /\
  shown_at lookup_md "openid_relying_party" <> None /\ shown_at m' "openid_relying_party" = None /\
  shown_at m' "acme_wallet" = Some (Additional (VMap TAny false [("level", VStr "high")])) /\
  shown_at m' "federation_entity" = Some (Known (zero_meta fe_schema)).
Proof. exact c70_case. Qed.

(** A chain resolved with a type filter starts with the entity's own statement, restricted. *)
Theorem C70_chains_restricted : forall w tas types start c,
  returned w tas types start c -> types <> [] ->
  exists e r s m m', c = e :: r /\ w_config w [] start = Some s /\ st_metadata s = Some m /\
    st_metadata e = Some m' /\ restricted types m m'.
Proof. exact chain_restricted. Qed.
Print Assumptions C70_chains_restricted.

(** Local metadata resolution with a type filter shows exactly the requested types the
    entity has. *)
Theorem C70_resolved_types : forall fuel e p rq m,
  local_resolve fuel e p rq = Done (Ok (Some m)) -> rq_types rq <> [] ->
  exists s m0, w_config (te_world e p rq) [] (rq_sub rq) = Some s /\ st_metadata s = Some m0 /\
    forall t, shown_at m t <> None <-> In t (rq_types rq) /\ shown_at m0 t <> None.
Proof. exact resolved_types. Qed.
Print Assumptions C70_resolved_types.

Example C70_resolve_case : exists m,
  local_resolve 9 env_carrier [] (Req LEAF [TA] ["openid_relying_party"; "acme"]) = Done (Ok (Some m)) /\
  shown_at m "openid_relying_party" <> None.
Proof. exact c70_resolve_case. Qed.
