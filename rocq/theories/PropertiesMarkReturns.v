(** C72, C40 and C41, continued: trust marks when a remote resolver is the default. *)
From Verif Require Import Base GoVal Policy Schema Metadata Chain Resolver SpecResolver FloatTime SpecTime Json TrustMark SpecTrustMark WitnessResolver
  WitnessTrustMark SpecMarkDefault SpecMarkReturns MarkReturnFacts WitnessMarkReturns.
Local Open Scope string_scope.

(** ** C72 Verifying a trust mark returns *)

(** With a resolve endpoint as the default verification always ends, without recursion, and
    crashes exactly if the statement the endpoint tells of the issuer has no key set. *)
Theorem C72_remote_partial : forall e p t ta ep fuel, te_default e = SimpleR ep -> in_sync e t -> 0 < fuel ->
  exists r, verify_mark fuel e p t ta = Done r /\
    (r = Panic <-> exists m pl s, may_count e t ta m /\ mk_iss m <> st_sub ta /\
       responds e p ep (issuer_request (mk_iss m) ta) pl /\ told_statement e p (mk_iss m) pl s /\ st_jwks s = None).
Proof. exact remote_returns. Qed.
Print Assumptions C72_remote_partial.

(** The same verification with two endpoints: accepted, and a crash. *)
Theorem C72_remote_refuted : exists e e', te_default e = SimpleR RES /\ in_sync e (info0 "tm1" "kiss:bare") /\
  verify_mark 1 e [] (info0 "tm1" "kiss:bare") ta_cfg = Done (Ok tt) /\
  te_default e' = SimpleR RES /\ in_sync e' (info0 "tm1" "kiss:bare") /\ verify_mark 1 e' [] (info0 "tm1" "kiss:bare") ta_cfg = Done Panic.
Proof. exact c72_remote_case. Qed.
Print Assumptions C72_remote_refuted.

(** With the smart resolver verification ends if nobody bears, directly or through others,
    a mark of its own (C72_refuted_diverges shows that this is needed) and all else is as in
    C72_returns_partial. *)
Theorem C72_smart_partial : forall U rank e, all_have_keys e -> superiors_among U e -> resolves_calmly e -> marks_descend rank e ->
  forall p t ta fuel, te_default e = SmartR -> in_sync e t ->
  (forall m, is_mark e (ti_jwt t) m -> S (List.length U) + rank (mk_iss m) < fuel) ->
  exists r, verify_mark fuel e p t ta = Done r /\ r <> Panic.
Proof. exact smart_returns. Qed.
Print Assumptions C72_smart_partial.

Example C72_smart_case : exists e, te_default e = SmartR /\ in_sync e (info0 "tm1" "kiss:bare") /\
  (all_have_keys e /\ superiors_among [TA] e /\ resolves_calmly e /\ marks_descend rank2 e) /\
  (forall m, is_mark e "kiss:bare" m -> rank2 (mk_iss m) = 1) /\ verify_mark 9 e [] (info0 "tm1" "kiss:bare") ta_cfg = Done (Ok tt).
Proof. exact c72_smart_case. Qed.

(** ** C40 A trust mark is accepted exactly under the specified conditions *)

(** As C40_smart_iff_partial, for issuers that bear trust marks themselves. *)
Theorem C40_smart_marks_partial : forall U rank e, all_have_keys e -> superiors_among U e -> resolves_calmly e -> marks_descend rank e ->
  forall p t ta, te_default e = SmartR -> in_sync e t -> (forall iss, decodes e (te_world e p (issuer_request iss ta))) ->
  ((exists fuel, verify_mark fuel e p t ta = Done (Ok tt)) <-> recognised smart_keys e p t ta).
Proof. exact verify_mark_smart_descend. Qed.
Print Assumptions C40_smart_marks_partial.

Example C40_smart_marks_case : exists e s, te_default e = SmartR /\ in_sync e (info0 "tm1" "kiss:bare") /\
  (all_have_keys e /\ superiors_among [TA] e /\ resolves_calmly e /\ marks_descend rank2 e) /\
  (forall iss, decodes e (te_world e [] (issuer_request iss ta_cfg))) /\
  w_config (te_world e [] (issuer_request ISS ta_cfg)) [] ISS = Some s /\ st_marks s <> [] /\
  verify_mark 9 e [] (info0 "tm1" "kiss:bare") ta_cfg = Done (Ok tt) /\ verify_mark 9 e [] (info0 "tm1" "ko:d") ta_cfg = Done Err.
Proof. exact c40_descend_case. Qed.

(** ** C41 A trust mark counts only for its subject *)

(** Missing, as in C41_reported_partial: the subject. *)
Theorem C41_remote_partial : forall fuel e p rq pl t ep, te_default e = SimpleR ep ->
  resolve_payload fuel e LocalR p rq = Done (Ok pl) -> In t (pl_marks pl) ->
  exists leaf c, chain_to (te_world e p rq) (rq_anchors rq) (rq_sub rq) (rq_types rq) (leaf :: c) /\
    In (ti_type t, ti_jwt t) (st_marks leaf) /\ exists k, recognised (remote_keys ep) e (k :: p) t (last (leaf :: c) leaf).
Proof. exact reported_remote. Qed.
Print Assumptions C41_remote_partial.

Example C41_remote_case : exists pl t, te_default (env2 (SimpleR RES)) = SimpleR RES /\
  resolve_payload 9 (env2 (SimpleR RES)) LocalR [] (Req LEAF [TA] []) = Done (Ok pl) /\ In t (pl_marks pl).
Proof. exact c41_remote_case. Qed.

(** The smart resolver reports what the endpoint of an anchor tells, or such marks. *)
Theorem C41_smart_partial : forall fuel e p rq pl t, te_default e = SmartR ->
  (forall q iss ta, decodes e (te_world e q (issuer_request iss ta))) ->
  resolve_payload fuel e SmartR p rq = Done (Ok pl) -> In t (pl_marks pl) ->
  (exists k id, nth_error (rq_anchors rq) k = Some id /\ usable e (k :: p) rq id pl) \/
  (exists leaf c, chain_to (te_world e p rq) (rq_anchors rq) (rq_sub rq) (rq_types rq) (leaf :: c) /\
    In (ti_type t, ti_jwt t) (st_marks leaf) /\ exists k, recognised smart_keys e (k :: p) t (last (leaf :: c) leaf)).
Proof. exact reported_smart. Qed.
Print Assumptions C41_smart_partial.

Example C41_smart_case : exists pl t, te_default (env2 SmartR) = SmartR /\
  (forall q iss ta, decodes (env2 SmartR) (te_world (env2 SmartR) q (issuer_request iss ta))) /\
  resolve_payload 9 (env2 SmartR) SmartR [] (Req LEAF [TA] []) = Done (Ok pl) /\ In t (pl_marks pl).
Proof. exact c41_smart_case. Qed.

Theorem C41_told_refuted : forall d, d = SimpleR RES \/ d = SmartR -> exists fuel e p rq pl t m,
  te_default e = d /\ resolve_payload fuel e LocalR p rq = Done (Ok pl) /\ In t (pl_marks pl) /\
  is_mark e (ti_jwt t) m /\ mk_sub m <> rq_sub rq.
Proof. exact c41_other. Qed.
Print Assumptions C41_told_refuted.
