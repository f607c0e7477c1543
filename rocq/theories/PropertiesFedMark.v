(** Trust marks in federations whose members use this library. The theorems range over all
    networks, keys, marks and lines of superiors; what else the network serves does not matter. *)
From Coq Require Import QArith.
From Verif Require Import Base GoVal Policy Schema Metadata Chain Resolver SpecResolver WitnessResolver Json SpecJson TrustMark SpecTrustMark Refresher Leaf Config Jwt Statement
  Encode SpecEncode WitnessStatement WitnessEncode Federation SpecFederation WitnessFederation SpecFedMark FedMarkFacts WitnessFedMark.
From Verif Require Import SpecEncode Json.
Local Open Scope nat_scope.
Local Open Scope string_scope.

(** ** C136 Trust marks issued in a federation are accepted by its members *)

(** [y] is the anchor [a] or below it, may issue marks of this type, and issued [t]. A member with
    a configuration [ta] of the anchor accepts [t]. *)
Theorem C136_accepted : forall e net p a y ta typ sub dj t, member e net -> configures a ta ->
  let n := net p (Req (pa_id y) [pa_id a] []) in
  belongs n a y -> issues n y typ sub dj (te_now e p false) t -> may_issue n a y typ dj (te_now e p true) ->
  exists fuel, verify_mark fuel e p t ta = Done (Ok tt).
Proof. exact federation_mark. Qed.
Print Assumptions C136_accepted.

Example C136_case : member member_env (fun _ _ => n0) /\ configures p_ta ta_read /\ belongs n0 p_ta p_im /\ issues n0 p_im "tm1" LEAF "dlg" (te_now member_env [] false) fed_mark /\
  may_issue n0 p_ta p_im "tm1" "dlg" (te_now member_env [] true) /\ lookup "tm1" (pa_owners p_ta) <> None /\
  verify_mark 4 member_env [] fed_mark ta_read = Done (Ok tt).
Proof. exact c136_case. Qed.

(** When [x] carries the mark in its configuration, the resolver reports it for [x]. *)
Theorem C136_reported : forall e net p a x c k typ jwt y sub dj t fuel pl, member e net ->
  let n := net p (Req (pa_id x) [pa_id a] []) in
  sound_participant n x -> publishes n [] x c -> pa_id x <> pa_id a -> pa_hints x <> [] ->
  (forall q s, w_config (seen n) q (pa_id a) = Some s -> configures a s) ->
  nth_error (st_marks (sp_claims c)) k = Some (typ, jwt) ->
  let n' := net (k :: p) (Req (pa_id y) [pa_id a] []) in
  belongs n' a y -> issues n' y typ sub dj (te_now e (k :: p) false) t -> may_issue n' a y typ dj (te_now e (k :: p) true) -> ti_jwt t = jwt ->
  resolve_payload fuel e LocalR p (Req (pa_id x) [pa_id a] []) = Done (Ok pl) ->
  exists t', In t' (pl_marks pl) /\ ti_type t' = typ /\ ti_jwt t' = jwt.
Proof. exact federation_reported. Qed.
Print Assumptions C136_reported.

Example C136_reported_case : sound_participant n0 p_leaf /\ publishes n0 [] p_leaf c_leaf /\ pa_id p_leaf <> pa_id p_ta /\ pa_hints p_leaf <> [] /\
  (forall q s, w_config (seen n0) q (pa_id p_ta) = Some s -> configures p_ta s) /\ nth_error (st_marks (sp_claims c_leaf)) 0 = Some ("tm1", "eyJ") /\
  issues n0 p_im "tm1" LEAF "dlg" (te_now member_env [0] false) fed_mark /\ ti_jwt fed_mark = "eyJ" /\
  exists pl, resolve_payload 5 member_env LocalR [] (Req LEAF [TA] []) = Done (Ok pl) /\ map (fun t => (ti_type t, ti_jwt t)) (pl_marks pl) = [("tm1", "eyJ")] /\
    List.length (pl_chain pl) = 4.
Proof. exact c136_reported_case. Qed.
