(** C115, continued: ResolvePossible of the smart resolver. *)
From Verif Require Import Base GoVal Policy Schema Metadata Chain Resolver FloatTime Json TrustMark WitnessResolver WitnessTrustMark SmartPossibleFacts.
Local Open Scope nat_scope.
Local Open Scope string_scope.

(** ** C115 ResolvePossible agrees with Resolve *)

(** The smart resolver says what the first endpoint of an anchor says that does not leave it
    open ... *)
Theorem C115_smart_first : forall fuel e p rq k id ec yes no, nth_error (rq_anchors rq) k = Some id ->
  te_config e (k :: p) id = Some ec -> resolve_endpoint ec <> "" ->
  resolve_possible fuel e (SimpleR (resolve_endpoint ec)) (k :: p) rq = Done (Ok (yes, no)) -> yes = true \/ no = true ->
  (forall j id' ec', j < k -> nth_error (rq_anchors rq) j = Some id' -> te_config e (j :: p) id' = Some ec' -> resolve_endpoint ec' <> "" ->
     resolve_possible fuel e (SimpleR (resolve_endpoint ec')) (j :: p) rq = Done (Ok (false, false))) ->
  resolve_possible fuel e SmartR p rq = Done (Ok (yes, no)).
Proof. exact smart_first. Qed.
Print Assumptions C115_smart_first.

(** ... and what the local resolver says if all of them do. *)
Theorem C115_smart_rest : forall fuel e p rq,
  (forall j id ec, nth_error (rq_anchors rq) j = Some id -> te_config e (j :: p) id = Some ec -> resolve_endpoint ec <> "" ->
     resolve_possible fuel e (SimpleR (resolve_endpoint ec)) (j :: p) rq = Done (Ok (false, false))) ->
  resolve_possible fuel e SmartR p rq = resolve_possible fuel e LocalR p rq.
Proof. exact smart_rest. Qed.
Print Assumptions C115_smart_rest.

Example C115_smart_case :
  (exists ec, te_config (env_res (AError "invalid_trust_chain")) [1] TA = Some ec /\ resolve_endpoint ec <> "" /\
     resolve_possible 9 (env_res (AError "invalid_trust_chain")) (SimpleR (resolve_endpoint ec)) [1] (Req LEAF [OTHER; TA] []) = Done (Ok (false, true))) /\
  te_config (env_res (AError "invalid_trust_chain")) [0] OTHER = None /\
  resolve_possible 9 (env_res (AError "invalid_trust_chain")) SmartR [] (Req LEAF [OTHER; TA] []) = Done (Ok (false, true)) /\
  resolve_possible 9 (env_res (AError "server_error")) SmartR [] (Req LEAF [OTHER; TA] []) = Done (Ok (true, false)).
Proof. exact smart_possible_case. Qed.
