(** Properties of trust chain resolution. The statements use the model of the resolver in
    Resolver.v and the vocabulary of SpecResolver.v; every theorem ranges over all networks
    [w] (which may answer differently at every request), anchors, entity types, starting
    entities and depths. *)
From Verif Require Import Base GoVal Policy Schema Metadata Chain Resolver SpecResolver SpecChain
  ResolverFacts ResolverLaws WitnessResolver.
Local Open Scope string_scope.

(** ** C19 Every returned chain is anchored and signed *)

(** Missing: chains of one statement, i.e. a starting entity that is an anchor or has no
    authority hints (C19_refuted). All other chains have at least three statements
    (C19_length). *)
Theorem C19_signed_partial : forall w tas types start c,
  returned w tas types start c -> List.length c <> 1 -> signed_chain w tas c.
Proof. exact chain_signed. Qed.
Print Assumptions C19_signed_partial.

Theorem C19_anchored_partial : forall w tas types start c,
  returned w tas types start c -> List.length c <> 1 -> ends_at_anchor tas c.
Proof. exact chain_anchored. Qed.
Print Assumptions C19_anchored_partial.

Theorem C19_length : forall w tas types start c,
  returned w tas types start c -> List.length c = 1 \/ 3 <= List.length c.
Proof. exact returned_one. Qed.
Print Assumptions C19_length.

Example C19_case : returned net0 tas0 [] LEAF (chain0 leaf0 None None []) /\ List.length (chain0 leaf0 None None []) <> 1.
Proof. exact c19_case. Qed.

Theorem C19_refuted : exists w tas types start c,
  returned w tas types start c /\ ~ ends_at_anchor tas c /\
  (forall s ks ta, In s c -> In ta tas -> ks = ta_jwks ta \/ ks = st_jwks s -> ~ signed_by w s ks).
Proof. exact c19_witness. Qed.
Print Assumptions C19_refuted.

(** ** C20 Chains are linked by issuer and subject *)

Theorem C20_linked : forall w tas types start c, returned w tas types start c -> linked c.
Proof. exact chain_linked. Qed.
Print Assumptions C20_linked.

(** The last statement is self-issued by an anchor. Missing: one-statement chains. *)
Theorem C20_self_issued_partial : forall w tas types start c,
  returned w tas types start c -> List.length c <> 1 -> ends_at_anchor tas c.
Proof. exact chain_anchored. Qed.
Print Assumptions C20_self_issued_partial.

Example C20_case : returned net0 tas0 [] LEAF (chain0 leaf0 None None []) /\ List.length (chain0 leaf0 None None []) <> 1.
Proof. exact c19_case. Qed.

Theorem C20_refuted : exists w tas types start c, returned w tas types start c /\ ~ ends_at_anchor tas c.
Proof. exact c20_witness. Qed.
Print Assumptions C20_refuted.

(** ** C21 All statements of a returned chain are time-valid *)

(** Missing: the first statement (C21_refuted). *)
Theorem C21_time_valid_partial : forall w tas types start c s r,
  returned w tas types start c -> c = s :: r ->
  forall x, In x r -> exists p b, valid_at (w_now w p b) x.
Proof. exact chain_times. Qed.
Print Assumptions C21_time_valid_partial.

Example C21_case : exists s r, chain0 leaf0 None None [] = s :: r /\ List.length r = 3 /\
  returned net0 tas0 [] LEAF (s :: r) /\ forall x, In x r -> valid_at 500%Z x.
Proof. exact c21_case. Qed.

Theorem C21_refuted : exists w tas types start c s,
  (forall p b, w_now w p b = 500%Z) /\ returned w tas types start c /\ 3 <= List.length c /\ In s c /\ ~ valid_at 500%Z s.
Proof. exact c21_witness. Qed.
Print Assumptions C21_refuted.

(** ** C22 A returned chain is about the requested entity *)

(** The first statement is the document served for the requested entity. Missing: that
    this document names the requested entity (C22_refuted). *)
Theorem C22_subject_partial : forall w tas types start c,
  returned w tas types start c ->
  exists e r s, c = e :: r /\ w_config w [] start = Some s /\ st_jwt e = st_jwt s /\
    st_iss e = st_iss s /\ st_sub e = st_sub s /\
    (st_iss s = start -> st_sub s = start -> st_iss e = start /\ st_sub e = start).
Proof. exact chain_subject. Qed.
Print Assumptions C22_subject_partial.

Example C22_case : returned net0 tas0 [] LEAF (chain0 leaf0 None None []).
Proof. exact net0_returned. Qed.

Theorem C22_refuted : exists w tas types start c s r,
  returned w tas types start c /\ 3 <= List.length c /\ c = s :: r /\ st_iss s <> start /\ st_sub s <> start.
Proof. exact c22_witness. Qed.
Print Assumptions C22_refuted.

(** ** C23 Chains are loop free *)

(** The issuers of all statements but the anchor's own configuration are different.
    Missing: starting configurations with different issuer and subject (C23_refuted). *)
Theorem C23_loop_free_partial : forall w tas types start c s,
  returned w tas types start c ->
  w_config w [] start = Some s -> st_iss s = st_sub s ->
  NoDup (map st_iss (removelast c)).
Proof. exact chain_loop_free. Qed.
Print Assumptions C23_loop_free_partial.

Example C23_case : exists s, returned net0 tas0 [] LEAF (chain0 leaf0 None None []) /\
  w_config net0 [] LEAF = Some s /\ st_iss s = st_sub s /\
  map st_iss (removelast (chain0 leaf0 None None [])) = [LEAF; IM; TA].
Proof. exact c23_case. Qed.

Theorem C23_refuted : exists w tas types start c,
  returned w tas types start c /\ ~ NoDup (map st_iss (removelast c)).
Proof. exact c23_witness. Qed.
Print Assumptions C23_refuted.

(** ** C24 max_path_length constraints are enforced on every chain *)

(** Below the issuer of [s] there are the subject and [length lower - 1] intermediates. *)
Theorem C24_max_path_length : forall w tas types start c lower s co m,
  returned w tas types start c -> subordinate c lower s ->
  st_constraints s = Some co -> co_max_path co = Some m ->
  (Z.of_nat (List.length lower) - 1 <= m)%Z.
Proof. exact chain_max_path. Qed.
Print Assumptions C24_max_path_length.

Example C24_case :
  returned (net LEAF leaf0 None (max_path 1) []) tas0 [] LEAF (chain0 leaf0 None (max_path 1) []) /\
  subordinate (chain0 leaf0 None (max_path 1) []) [leaf0; im_sub LEAF None []] (ta_sub (max_path 1)) /\
  (forall c, ~ returned (net LEAF leaf0 None (max_path 0) []) tas0 [] LEAF c).
Proof. exact c24_case. Qed.

(** ** C25 naming constraints are enforced on every chain *)

(** Missing: starting configurations with different issuer and subject (C25_refuted). *)
Theorem C25_naming_partial : forall w tas types start c lower s co n x,
  self_named w start ->
  returned w tas types start c -> subordinate c lower s ->
  st_constraints s = Some co -> co_naming co = Some n ->
  In x (lower ++ [s])%list ->
  (forall y, In y (nc_excluded n) -> ~ name_matches w y (st_sub x)) /\
  (forall l, nc_permitted n = Some l -> exists y, In y l /\ name_matches w y (st_sub x)).
Proof. exact chain_naming. Qed.
Print Assumptions C25_naming_partial.

Example C25_case :
  self_named (net LEAF leaf0 None only_example []) LEAF /\
  returned (net LEAF leaf0 None only_example []) tas0 [] LEAF (chain0 leaf0 None only_example []) /\
  subordinate (chain0 leaf0 None only_example []) [leaf0; im_sub LEAF None []] (ta_sub only_example).
Proof. exact c25_case. Qed.

Theorem C25_refuted : exists w tas types start c lower s co n x y,
  returned w tas types start c /\ subordinate c lower s /\
  st_constraints s = Some co /\ co_naming co = Some n /\
  In x (lower ++ [s])%list /\ In y (nc_excluded n) /\ name_matches w y (st_sub x).
Proof. exact c25_witness. Qed.
Print Assumptions C25_refuted.

(** ** C26 allowed_entity_types constraints are enforced on every chain *)

(** The entities below the issuer of [s] are the subject [e] and the issuers of the other
    statements in [lower]; [configs] are the latter's configurations. Missing: entity types
    the library has no struct for (C26_refuted). *)
Theorem C26_entity_types_partial : forall w tas types start c lower s co l,
  returned w tas types start c -> subordinate c lower s ->
  st_constraints s = Some co -> co_types co = Some l ->
  exists e rest configs,
    lower = e :: rest /\
    map st_sub configs = map st_iss rest /\
    (forall b, In b configs -> exists p, w_config w p (st_iss b) = Some b /\ st_iss b = st_sub b) /\
    forall b t, In b (e :: configs) -> In t (types_of b) -> In t l \/ t = "federation_entity".
Proof. exact chain_types. Qed.
Print Assumptions C26_entity_types_partial.

Example C26_case :
  returned (net LEAF leaf0 None only_rp []) tas0 [] LEAF (chain0 leaf0 None only_rp []) /\
  subordinate (chain0 leaf0 None only_rp []) [leaf0; im_sub LEAF None []] (ta_sub only_rp) /\
  types_of leaf0 = ["openid_relying_party"].
Proof. exact c26_case. Qed.

Theorem C26_refuted : exists w tas types start c lower s co l e r t,
  returned w tas types start c /\ subordinate c lower s /\
  st_constraints s = Some co /\ co_types co = Some l /\ c = e :: r /\
  In t (all_types_of e) /\ ~ In t l /\ t <> "federation_entity".
Proof. exact c26_witness. Qed.
Print Assumptions C26_refuted.

(** ** C27 Resolution is complete *)

Theorem C27_complete : forall fuel w tas types start cs e hs m,
  resolve_valid fuel w tas types start = Done (Ok cs) ->
  start_config w types start e -> hs <> [] ->
  path_up w tas [] e [] hs -> signed_up w tas e None hs ->
  chain_metadata (chain_along e hs) = Ok m ->
  In (chain_along e hs) cs.
Proof. exact path_returned_valid. Qed.
Print Assumptions C27_complete.

(** Without the metadata check, exactly the chains along such paths are returned. *)
Theorem C27_exactly : forall fuel w tas types start cs e,
  resolve_chains fuel w tas types start = Done (Ok cs) ->
  start_config w types start e -> st_hints e <> [] -> ~ In (st_iss e) (anchor_ids tas) ->
  forall c, In c cs <-> exists hs, path_up w tas [] e [] hs /\ signed_up w tas e None hs /\ c = chain_along e hs.
Proof. exact returned_exactly. Qed.
Print Assumptions C27_exactly.

Example C27_case :
  start_config net0 [] LEAF leaf0 /\ path_up net0 tas0 [] leaf0 [] hops0 /\
  signed_up net0 tas0 leaf0 None hops0 /\ chain_along leaf0 hops0 = chain0 leaf0 None None [] /\
  exists cs, resolve_valid 5 net0 tas0 [] LEAF = Done (Ok cs).
Proof. exact c27_case. Qed.

(** ** C28 Resolution terminates *)

(** Missing: networks that name infinitely many superiors (C28_refuted). *)
Theorem C28_terminates_partial : forall U w tas types start fuel,
  (forall p a ec, w_config w p a = Some ec -> incl (st_hints ec) U) ->
  List.length U < fuel ->
  exists r, resolve_valid fuel w tas types start = Done r.
Proof. exact finite_terminates. Qed.
Print Assumptions C28_terminates_partial.

(** The result does not depend on the bound used in the model. *)
Theorem C28_bound_irrelevant : forall f f' w tas types start r,
  f <= f' -> resolve_valid f w tas types start = Done r -> resolve_valid f' w tas types start = Done r.
Proof. exact fuel_irrelevant. Qed.
Print Assumptions C28_bound_irrelevant.

Example C28_case : forall p a ec, w_config net0 p a = Some ec -> incl (st_hints ec) ["https://down.example"; IM; TA].
Proof. exact c28_case. Qed.

Theorem C28_refuted : exists w tas start, forall fuel, resolve_valid fuel w tas [] start = OutOfFuel.
Proof. exact c28_witness. Qed.
Print Assumptions C28_refuted.

(** ** C29 Authorities are independent *)

(** [only i w] is the network in which only the authority in position [i] of the starting
    entity's hints can be reached. Missing: resolutions that do not return because another
    authority makes them run forever or panic (C29_refuted). *)
Theorem C29_independent_partial : forall fuel w tas types start cs,
  resolve_valid fuel w tas types start = Done (Ok cs) ->
  forall c, List.length c <> 1 ->
    In c cs <-> exists i cs', resolve_valid fuel (only i w) tas types start = Done (Ok cs') /\ In c cs'.
Proof. exact authorities_independent_valid. Qed.
Print Assumptions C29_independent_partial.

Theorem C29_independent_chains_partial : forall fuel w tas types start cs,
  resolve_chains fuel w tas types start = Done (Ok cs) ->
  forall c, List.length c <> 1 ->
    In c cs <-> exists i cs', resolve_chains fuel (only i w) tas types start = Done (Ok cs') /\ In c cs'.
Proof. exact authorities_independent. Qed.
Print Assumptions C29_independent_chains_partial.

Example C29_case :
  exists cs cs', resolve_chains 5 net0 tas0 [] LEAF = Done (Ok cs) /\ List.length cs = 1 /\
    resolve_chains 5 (only 1 net0) tas0 [] LEAF = Done (Ok cs') /\ cs' = cs /\
    resolve_chains 5 (only 0 net0) tas0 [] LEAF = Done (Ok []).
Proof. exact c29_case. Qed.

Theorem C29_refuted : exists w tas start,
  (forall fuel, resolve_valid fuel w tas [] start = OutOfFuel) /\
  exists i c, returned (only i w) tas [] start c /\ 3 <= List.length c.
Proof. exact c29_witness. Qed.
Print Assumptions C29_refuted.

(** ** C30 Resolution never crashes *)

(** Exactly when it does: the starting entity has no metadata, or the metadata evaluation
    of one of the chains does (see C03, C04). *)
Theorem C30_panics_partial : forall fuel w tas types start,
  resolve_valid fuel w tas types start = Done Panic <->
  (start <> "" /\ exists s, w_config w [] start = Some s /\ st_metadata s = None) \/
  (exists cs c, resolve_chains fuel w tas types start = Done (Ok cs) /\ In c cs /\ chain_metadata c = Panic).
Proof. exact resolve_panics. Qed.
Print Assumptions C30_panics_partial.

Theorem C30_chains_no_panic_partial : forall fuel w tas types start,
  (start <> "" -> forall s, w_config w [] start = Some s -> st_metadata s <> None) ->
  resolve_chains fuel w tas types start <> OutOfFuel ->
  exists cs, resolve_chains fuel w tas types start = Done (Ok cs).
Proof. exact resolve_chains_no_panic. Qed.
Print Assumptions C30_chains_no_panic_partial.

Example C30_case : exists cs, resolve_valid 5 net0 tas0 [] LEAF = Done (Ok cs) /\ cs <> [].
Proof. exact c30_case. Qed.

Theorem C30_refuted : exists w tas types start, forall fuel, resolve_valid fuel w tas types start = Done Panic.
Proof. exact c30_witness. Qed.
Print Assumptions C30_refuted.

(** ** C39 Statements with not-understood critical claims are rejected *)

Theorem C39_refuted : exists w tas types start c s x,
  returned w tas types start c /\ In s c /\ In x (st_crit s).
Proof. exact c39_witness. Qed.
Print Assumptions C39_refuted.
