(** Resolving with several trust anchors. *)
From Verif Require Import Base GoVal Policy Schema Metadata Chain Resolver SpecResolver SpecExact SpecAnchors WitnessResolver
  AnchorFacts WitnessAnchors.
From Coq Require Import Permutation.
Local Open Scope string_scope.

(** ** C144 Trust anchors are independent of each other *)

(** Full statement: configuring a further trust anchor leaves the chains to the others as
    they are. It is false: resolution does not go beyond an anchor. *)
Theorem C144_refuted : exists (w : world) (tas : list anchor) (extra : anchor) (types : list string) (start id : string) (c : chain),
  resolve_valid 5 w tas types start = Done (Ok [c]) /\ leads_to id c /\ pinned (tas ++ [extra])%list id = pinned tas id /\
  resolve_valid 5 w (tas ++ [extra])%list types start = Done (Ok []).
Proof. exact anchors_refuted. Qed.
Print Assumptions C144_refuted.

(** The chains to an anchor are those found with this anchor alone that do not pass another
    anchor on the way. *)
Theorem C144_exactly_partial : forall fuel fuel' w tas types start cs cs' id ks c,
  resolve_chains fuel w tas types start = Done (Ok cs) ->
  resolve_chains fuel' w [Anchor id ks] types start = Done (Ok cs') ->
  pinned tas id = Some ks -> 2 <= List.length c -> leads_to id c ->
  (In c cs <-> In c cs' /\ clear_of tas c).
Proof. exact chains_exactly. Qed.
Print Assumptions C144_exactly_partial.

Theorem C144_valid_partial : forall fuel fuel' w tas types start cs cs' id ks c,
  resolve_valid fuel w tas types start = Done (Ok cs) ->
  resolve_valid fuel' w [Anchor id ks] types start = Done (Ok cs') ->
  pinned tas id = Some ks -> 2 <= List.length c -> leads_to id c ->
  (In c cs <-> In c cs' /\ clear_of tas c).
Proof. exact valid_exactly. Qed.
Print Assumptions C144_valid_partial.

(** A change of the other anchors keeps every chain none of whose entities becomes an
    anchor. *)
Theorem C144_keep_partial : forall fuel fuel' w tas tas' types start cs cs' id c,
  resolve_chains fuel w tas types start = Done (Ok cs) ->
  resolve_chains fuel' w tas' types start = Done (Ok cs') ->
  In c cs -> 2 <= List.length c -> leads_to id c -> pinned tas' id = pinned tas id -> clear_of tas' c -> In c cs'.
Proof. exact chains_keep. Qed.
Print Assumptions C144_keep_partial.

(** Only the first entry for an entity counts, and nothing else of the configured list. *)
Theorem C144_first_entry : forall tas tas', (forall id, pinned tas id = pinned tas' id) -> forall fuel w types start,
  resolve_chains fuel w tas types start = resolve_chains fuel w tas' types start /\
  resolve_valid fuel w tas types start = resolve_valid fuel w tas' types start.
Proof. exact same_chains. Qed.
Print Assumptions C144_first_entry.

(** The order in which distinct anchors are configured does not matter. *)
Theorem C144_order : forall tas tas', Permutation tas tas' -> NoDup (anchor_ids tas) -> forall fuel w types start,
  resolve_chains fuel w tas types start = resolve_chains fuel w tas' types start /\
  resolve_valid fuel w tas types start = resolve_valid fuel w tas' types start.
Proof. exact order_chains. Qed.
Print Assumptions C144_order.

Example C144_case : resolve_chains 5 net0 tas_far [] LEAF = Done (Ok [long]) /\
  resolve_valid 5 net0 tas_far [] LEAF = Done (Ok [long]) /\
  resolve_chains 5 net0 [Anchor TA (Some ["kt"])] [] LEAF = Done (Ok [long]) /\
  resolve_valid 5 net0 [Anchor TA (Some ["kt"])] [] LEAF = Done (Ok [long]) /\
  pinned tas_far TA = Some (Some ["kt"]).
Proof. exact anchors_case. Qed.
Example C144_leads_case : leads_to TA long /\ 2 <= List.length long /\ below_top long = [LEAF; IM].
Proof. exact long_leads. Qed.
Example C144_clear_case : clear_of tas_far long /\ ~ clear_of tas_good long.
Proof. exact clear_far. Qed.
Example C144_nearest_case : resolve_valid 5 net0 tas_good [] LEAF = Done (Ok [[leaf0; im_sub LEAF None []; im_cfg]]).
Proof. exact anchors_nearest. Qed.
Example C144_order_case : Permutation tas_far [Anchor TA (Some ["kt"]); Anchor OTHER (Some ["ko"])] /\ NoDup (anchor_ids tas_far).
Proof. exact order_case. Qed.
Example C144_first_case : forall id, pinned [Anchor TA (Some ["kt"]); Anchor TA (Some ["old"])] id = pinned tas0 id.
Proof. exact shadowed_case. Qed.
