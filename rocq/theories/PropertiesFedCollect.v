(** Properties of collecting a federation of entities that use this library. *)
From Coq Require Import QArith.
From Verif Require Import Base GoVal Policy Schema Metadata Chain Resolver SpecResolver Json TrustMark SpecTrustMark Leaf Config Jwt Statement Encode SpecEncode
  WitnessFederation WitnessFedMark Discovery SpecDiscovery SpecCarried Federation SpecFederation SpecFedMark SpecFedCollect FedCollectFacts WitnessFedCollect.
Local Open Scope nat_scope.
Local Open Scope string_scope.

(** C139. Collecting from an anchor finds every member of its federation that is enlisted with
    it, directly or through others, and that is what was asked for. *)
Theorem C139_found : forall ce net, collecting ce net -> forall fuel rq w l a x,
  SpecDiscovery.network fuel ce rq w -> returns w (cr_anchor rq) l -> pa_id a = cr_anchor rq -> serves net a ->
  enlisted ce net a x -> suits ce net a rq x -> exists e, In e l /\ ce_id e = pa_id x.
Proof. exact member_collected. Qed.
Print Assumptions C139_found.

Example C139_found_case : collecting collector net0 /\ SpecDiscovery.network 9 collector wish fed_world /\ returns fed_world (cr_anchor wish) fed_result /\
  pa_id p_ta = cr_anchor wish /\ serves net0 p_ta /\ enlisted collector net0 p_ta p_leaf /\ suits collector net0 p_ta wish p_leaf /\
  cr_marks wish = ["tm1"] /\ map ce_id fed_result = [pa_id p_leaf].
Proof. exact c139_case. Qed.

(** The trust chain and the metadata are reported, if asked for. *)
Theorem C139_chain : forall ce net, collecting ce net -> forall fuel rq w l a x e,
  SpecDiscovery.network fuel ce rq w -> returns w (cr_anchor rq) l -> pa_id a = cr_anchor rq -> In e l -> ce_id e = pa_id x ->
  (forall q, SpecFedMark.below_anchor (net (4 :: q) (question rq (pa_id x))) a x) ->
  asked_for rq "trust_chain" \/ asked_for rq "metadata" -> exists q, carries_chain (net (4 :: q) (question rq (pa_id x))) rq e.
Proof. exact member_chain. Qed.
Print Assumptions C139_chain.

(** So are the genuine trust marks of the member. *)
Theorem C139_marks : forall ce net, collecting ce net -> forall fuel rq w l a x e typ jwt,
  SpecDiscovery.network fuel ce rq w -> returns w (cr_anchor rq) l -> pa_id a = cr_anchor rq -> serves net a -> In e l -> ce_id e = pa_id x ->
  bears ce net a x typ jwt -> asked_for rq "trust_marks" -> exists t, In t (ce_marks e) /\ ti_type t = typ /\ ti_jwt t = jwt.
Proof. exact member_marks. Qed.
Print Assumptions C139_marks.

Example C139_carried_case : (forall q, SpecFedMark.below_anchor (net0 (4 :: q) (question wish (pa_id p_leaf))) p_ta p_leaf) /\
  bears collector net0 p_ta p_leaf "tm1" "eyJ" /\ asked_for wish "trust_chain" /\ asked_for wish "metadata" /\ asked_for wish "trust_marks" /\
  exists e, In e fed_result /\ ce_id e = pa_id p_leaf /\ ce_chain e = ["leaf"; "im:leaf"; "ta:im"; "ta"] /\ map ti_jwt (ce_marks e) = ["eyJ"] /\ ce_metadata e <> None.
Proof. exact c139_carried_case. Qed.
