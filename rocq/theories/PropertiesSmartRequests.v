(** C160, continued: whom the verification of trust marks asks if the smart resolver is the
    default. *)
From Verif Require Import Base GoVal Policy Schema Metadata Chain Resolver SpecResolver Requests SpecRequests WitnessResolver FloatTime Json TrustMark
  SpecTrustMark WitnessTrustMark MarkRequests SpecMarkRequests SpecSmartRequests SmartRequestFacts WitnessSmartRequests.
Local Open Scope string_scope.

(** ** C160 A trust mark cannot make its verifier contact arbitrary hosts *)

(** With the smart resolver as the default: a trust mark leads to requests only if it is of
    the type its holder says and the anchor does not exclude its issuer; then to those of
    asking the anchor about the issuer and of resolving it, and to those of the marks in the
    configuration of the issuer the chain found ends with, under the same conditions, and so
    on. *)
Theorem C160_smart_only_partial : forall fuel e p t ta c, te_default e = SmartR -> in_sync e t -> In c (verify_contacts fuel e p t ta) ->
  exists m ta' iss', is_mark e (ti_jwt t) m /\ mk_type m = ti_type t /\ eligible ta m /\
    leads_to e ta (mk_iss m) ta' iss' /\ smartly_for e (st_sub ta') iss' c.
Proof. exact verify_smart. Qed.
Print Assumptions C160_smart_only_partial.

(** If the anchor names issuers for the type and these have no trust marks themselves, nobody
    else is asked about. Missing: issuers with trust marks (refuted below). *)
Theorem C160_smart_named_partial : forall fuel e p t ta l c, te_default e = SmartR -> in_sync e t -> lookup (ti_type t) (st_mark_issuers ta) = Some l ->
  (forall iss leaf ch, In iss l -> chain_to_any e (Req iss [st_sub ta] []) (leaf :: ch) -> st_marks leaf = []) ->
  In c (verify_contacts fuel e p t ta) -> exists iss, In iss l /\ iss <> st_sub ta /\ smartly_for e (st_sub ta) iss c.
Proof. exact verify_smart_named. Qed.
Print Assumptions C160_smart_named_partial.

Example C160_smart_case : te_default (env_bearing []) = SmartR /\ in_sync (env_bearing []) (info0 "tm1" "kiss:m") /\
  lookup "tm1" (st_mark_issuers ta0) = Some [ISS] /\
  (forall iss leaf ch, In iss [ISS] -> chain_to_any (env_bearing []) (Req iss [st_sub ta0] []) (leaf :: ch) -> st_marks leaf = []) /\
  verify_contacts 9 (env_bearing []) [] (info0 "tm1" "kiss:m") ta0 =
    ToEntity [0] TA :: map (Within [] (Req ISS [TA] [])) [ForConfig [] ISS; ForConfig [0] TA; ForStatement [0] "https://ta.example/fetch" ISS TA] /\
  verify_mark 9 (env_bearing []) [] (info0 "tm1" "kiss:m") ta0 = Done (Ok tt).
Proof. exact c160_smart_case. Qed.

(** A mark of a type for which the anchor names issuers, and its verification succeeds: but
    its issuer also carries one of a type of which the anchor says nothing, and the entity
    this one names is contacted. *)
Theorem C160_smart_refuted : exists e p t ta l c, te_default e = SmartR /\ in_sync e t /\ lookup (ti_type t) (st_mark_issuers ta) = Some l /\
  (forall q, te_config e q (st_sub ta) = Some ta) /\ verify_mark 9 e p t ta = Done (Ok tt) /\
  In c (verify_contacts 9 e p t ta) /\ ~ exists iss, In iss l /\ smartly_for e (st_sub ta) iss c.
Proof. exact c160_smart_witness. Qed.
Print Assumptions C160_smart_refuted.
