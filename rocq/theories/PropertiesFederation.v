(** Federations whose members use this library. The theorems range over all networks, keys,
    lines of superiors of any length, metadata, policies and constraints; what else the network
    serves does not matter. *)
From Coq Require Import QArith.
From Verif Require Import Base GoVal Policy Schema Metadata SpecMetadata Chain Resolver SpecResolver SpecChain WitnessResolver Json TrustMark Refresher Leaf Config Jwt Statement
  Encode SpecEncode WitnessStatement WitnessEncode Federation SpecFederation FederationFacts WitnessFederation.
From Verif Require Import SpecEncode GoVal.
Local Open Scope nat_scope.
Local Open Scope string_scope.

(** ** C135 A federation run with this library is resolved by this library *)

(** The entity [x] publishes its configuration [c], a line of superiors [ss] vouches for it up to
    a trust anchor, and the network names finitely many superiors [U]. Then resolution returns a
    chain with the documents of this line. *)
Theorem C135_resolves : forall n tas x c ss U fuel, pa_id x <> "" -> sound_participant n x -> publishes n [] x c -> line n tas [] x [] ss -> ss <> [] ->
  (forall p a ec, w_config (seen n) p a = Some ec -> incl (st_hints ec) U) -> List.length U < fuel ->
  exists cs ch, resolve_chains fuel (seen n) tas [] (pa_id x) = Done (Ok cs) /\ In ch cs /\ Forall2 statement_read (documents c ss) ch.
Proof. exact federation_resolves. Qed.
Print Assumptions C135_resolves.

Example C135_case : pa_id p_leaf <> "" /\ sound_participant (fed (Some pol_fed)) p_leaf /\ publishes (fed (Some pol_fed)) [] p_leaf c_leaf /\
  line (fed (Some pol_fed)) fed_anchors [] p_leaf [] (steps (Some pol_fed)) /\
  (forall p a ec, w_config (seen (fed (Some pol_fed))) p a = Some ec -> incl (st_hints ec) ["https://down.example"; IM; TA]) /\
  List.length (documents c_leaf (steps (Some pol_fed))) = 4.
Proof. exact c135_case. Qed.

(** With the check of metadata as well, if the policies of the line can be applied. *)
Theorem C135_valid : forall n tas x c ss fuel cs, pa_id x <> "" -> sound_participant n x -> publishes n [] x c -> line n tas [] x [] ss -> ss <> [] ->
  resolve_valid fuel (seen n) tas [] (pa_id x) = Done (Ok cs) ->
  exists ch, Forall2 statement_read (documents c ss) ch /\ ((exists m, chain_metadata ch = Ok m) -> In ch cs).
Proof. exact federation_resolves_valid. Qed.
Print Assumptions C135_valid.

(** The metadata of the chain are those [x] was configured with, as changed by the policies the
    superiors were configured with. *)
Theorem C135_metadata : forall n p x c ss ch m, publishes n p x c -> Forall2 statement_read (documents c ss) ch -> chain_metadata ch = Ok (Some m) ->
  exists pub, metadata_read (pa_metadata x) pub /\ md_extra m = md_extra pub /\
  forall t, In t entity_types -> exists q, combine_policies (policies_in (snd t) (documents c ss)) = Ok q /\
    match q, fst t pub with
    | None, o => fst t m = o
    | Some _, None => fst t m = None
    | Some q, Some em => exists em', apply_policy em q = Ok em' /\ fst t m = Some em'
    end.
Proof. exact federation_metadata. Qed.
Print Assumptions C135_metadata.

Example C135_metadata_case : exists ch em m, resolve_valid 4 (seen (fed (Some pol_fed))) fed_anchors [] LEAF = Done (Ok [ch]) /\ chain_metadata ch = Ok (Some m) /\ md_rp m = Some em /\
  em_tag "contacts" em = Some (VSlice TStr false [VStr "ops@ta.example"]) /\ em_tag "client_name" em = Some (VStr "App").
Proof. exact c135_metadata_case. Qed.

(** Without policies they are those [x] was configured with. *)
Theorem C135_plain : forall n tas x c ss ch, publishes n [] x c -> line n tas [] x [] ss -> plain_line ss -> Forall2 statement_read (documents c ss) ch ->
  exists m, chain_metadata ch = Ok (Some m) /\ metadata_read (pa_metadata x) m.
Proof. exact federation_plain. Qed.
Print Assumptions C135_plain.

Example C135_plain_case : publishes (fed None) [] p_leaf c_leaf /\ line (fed None) fed_anchors [] p_leaf [] (steps None) /\ plain_line (steps None) /\
  pa_metadata p_leaf = md_built.
Proof. exact c135_plain_case. Qed.
