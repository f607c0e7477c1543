(** C160, C161: whom the verification of trust marks and the resolution of metadata ask. *)
From Verif Require Import Base GoVal Policy Schema Metadata Chain Resolver SpecResolver Requests SpecRequests WitnessResolver FloatTime Json TrustMark
  SpecTrustMark WitnessTrustMark MarkRequests SpecMarkRequests MarkRequestFacts MarkRequestLaws WitnessMarkRequests SettledFacts.
Local Open Scope string_scope.

(** ** C160 A trust mark cannot make its verifier contact arbitrary hosts *)

(** With the local resolver or a resolve endpoint as the default: a trust mark leads to
    requests only if it is of the type its holder says, its issuer is not the anchor itself,
    and the anchor does not exclude the issuer; and then only to those of resolving the
    issuer. *)
Theorem C160_only_partial : forall fuel e p t ta c, te_default e <> SmartR -> in_sync e t -> In c (verify_contacts fuel e p t ta) ->
  exists m, is_mark e (ti_jwt t) m /\ mk_type m = ti_type t /\ mk_iss m <> st_sub ta /\
    (forall l, lookup (mk_type m) (st_mark_issuers ta) = Some l -> In (mk_iss m) l) /\
    on_behalf_of e (st_sub ta) (mk_iss m) c.
Proof. exact verify_on_behalf. Qed.
Print Assumptions C160_only_partial.

(** So if the anchor names issuers for the type, nobody else is asked about, whatever marks
    an entity presents. Missing: types of which the anchor says nothing (refuted below), and
    the smart resolver, which also verifies the marks of the issuer. *)
Theorem C160_named_partial : forall fuel e p t ta l c, te_default e <> SmartR -> in_sync e t -> lookup (ti_type t) (st_mark_issuers ta) = Some l ->
  In c (verify_contacts fuel e p t ta) -> exists iss, In iss l /\ iss <> st_sub ta /\ on_behalf_of e (st_sub ta) iss c.
Proof. exact verify_named. Qed.
Print Assumptions C160_named_partial.

(** The same for VerifiedFederation. *)
Theorem C160_list_partial : forall fuel e p ta c ts, te_default e <> SmartR ->
  (forall t, In t ts -> in_sync e t /\ exists l, lookup (ti_type t) (st_mark_issuers ta) = Some l) ->
  In c (verified_contacts fuel e p ts ta) ->
  exists t l iss, In t ts /\ lookup (ti_type t) (st_mark_issuers ta) = Some l /\ In iss l /\ iss <> st_sub ta /\ on_behalf_of e (st_sub ta) iss c.
Proof. exact (fun fuel e p ta c ts N => verified_named fuel e p ta c N ts 0). Qed.
Print Assumptions C160_list_partial.

Example C160_case : te_default env0 <> SmartR /\ in_sync env0 (info0 "tm1" "kiss:m") /\
  lookup "tm1" (st_mark_issuers ta0) = Some [ISS] /\
  verify_contacts 9 env0 [] (info0 "tm1" "kiss:m") ta0 =
    map (Within [] (Req ISS [TA] [])) [ForConfig [] ISS; ForConfig [0] TA; ForStatement [0] "https://ta.example/fetch" ISS TA] /\
  verify_mark 9 env0 [] (info0 "tm1" "kiss:m") ta0 = Done (Ok tt).
Proof. exact c160_case. Qed.

(** The answers to these requests determine the result, with every default resolver: there
    are no others. *)
Theorem C160_answers : forall e e' fuel p t ta, differ_in_answers e e' ->
  (forall c, In c (verify_contacts fuel e p t ta) -> answered_same e e' c) ->
  verify_contacts fuel e' p t ta = verify_contacts fuel e p t ta /\ verify_mark fuel e' p t ta = verify_mark fuel e p t ta.
Proof. exact (fun e e' fuel p t ta D => verify_answers e e' D fuel p t ta). Qed.
Print Assumptions C160_answers.

Theorem C160_list_answers : forall e e' fuel p ts ta, differ_in_answers e e' ->
  (forall c, In c (verified_contacts fuel e p ts ta) -> answered_same e e' c) ->
  verified_contacts fuel e' p ts ta = verified_contacts fuel e p ts ta /\ verified_marks fuel e' p ts ta = verified_marks fuel e p ts ta.
Proof. exact (fun e e' fuel p ts ta D => verified_answers e e' D fuel p ts ta). Qed.
Print Assumptions C160_list_answers.

Example C160_answers_case : differ_in_answers env0 env_more /\
  (forall c, In c (verify_contacts 9 env0 [] (info0 "tm1" "kiss:m") ta0) -> answered_same env0 env_more c) /\
  te_config env_more [] OTHER <> te_config env0 [] OTHER.
Proof. exact c160_answers_case. Qed.

(** For every type of which the anchor says nothing and every URL: a trust mark that has
    expired and that nobody has signed makes its verifier contact this URL. *)
Theorem C160_refuted : forall ta ty url, lookup ty (st_mark_issuers ta) = None -> url <> "" -> url <> st_sub ta ->
  exists e t m, te_default e = LocalR /\ in_sync e t /\ ti_type t = ty /\
    is_mark e (ti_jwt t) m /\ (exists x, mk_exp m = Some x /\ forall p b, (x < te_now e p b)%Z) /\ (forall j ks, te_verify e j ks = false) /\
    In (Within [] (Req url [st_sub ta] []) (ForConfig [] url)) (verify_contacts 2 e [] t ta).
Proof. exact lured. Qed.
Print Assumptions C160_refuted.

(** ** C161 When a resolver answers nobody else is asked *)

(** If the endpoint of one of the anchors gives a usable answer, the smart resolver asks the
    anchors up to it, and no other entity. *)
Theorem C161_spared : forall fuel e p rq k id pl c, nth_error (rq_anchors rq) k = Some id -> usable e (k :: p) rq id pl ->
  In c (payload_contacts fuel e SmartR p rq) \/ In c (metadata_contacts fuel e SmartR p rq) \/ In c (possible_contacts fuel e SmartR p rq) ->
  exists j id', j <= k /\ nth_error (rq_anchors rq) j = Some id' /\
    (c = ToEntity (j :: p) id' \/ exists ec, te_config e (j :: p) id' = Some ec /\ c = ToResolver (j :: p) (resolve_endpoint ec) rq).
Proof. exact smart_spares. Qed.
Print Assumptions C161_spared.

Example C161_case : usable (env_res (ABody "forged")) [0] (Req LEAF [TA; OTHER] []) TA pl_forged /\
  payload_contacts 9 (env_res (ABody "forged")) SmartR [] (Req LEAF [TA; OTHER] []) =
    [ToEntity [0] TA; ToResolver [0] "https://ta.example/resolve" (Req LEAF [TA; OTHER] [])] /\
  (exists p rq r, In (Within p rq r) (payload_contacts 9 (env_res (AError "server_error")) SmartR [] (Req LEAF [TA; OTHER] []))).
Proof. exact c161_case. Qed.

(** When asked only whether an entity can be resolved, the smart resolver asks nobody after
    the first endpoint that says yes or no ... *)
Theorem C161_settled : forall fuel e p rq k id ec yes no c, nth_error (rq_anchors rq) k = Some id ->
  te_config e (k :: p) id = Some ec -> resolve_endpoint ec <> "" ->
  resolve_possible fuel e (SimpleR (resolve_endpoint ec)) (k :: p) rq = Done (Ok (yes, no)) -> yes = true \/ no = true ->
  In c (possible_contacts fuel e SmartR p rq) ->
  exists j id', j <= k /\ nth_error (rq_anchors rq) j = Some id' /\
    (c = ToEntity (j :: p) id' \/ exists ec, te_config e (j :: p) id' = Some ec /\ c = ToResolver (j :: p) (resolve_endpoint ec) rq).
Proof. exact settled_spares. Qed.
Print Assumptions C161_settled.

(** ... and asks every anchor and its endpoint as long as none of the endpoints before said
    either. *)
Theorem C161_unsettled : forall fuel e p rq k id, nth_error (rq_anchors rq) k = Some id ->
  (forall j id' ec, j < k -> nth_error (rq_anchors rq) j = Some id' -> te_config e (j :: p) id' = Some ec -> resolve_endpoint ec <> "" ->
     resolve_possible fuel e (SimpleR (resolve_endpoint ec)) (j :: p) rq = Done (Ok (false, false))) ->
  In (ToEntity (k :: p) id) (possible_contacts fuel e SmartR p rq) /\
  (forall ec, te_config e (k :: p) id = Some ec -> resolve_endpoint ec <> "" ->
     In (ToResolver (k :: p) (resolve_endpoint ec) rq) (possible_contacts fuel e SmartR p rq)).
Proof. exact unsettled_asks. Qed.
Print Assumptions C161_unsettled.

Example C161_settled_case :
  (exists ec, te_config (env_res (AError "invalid_trust_chain")) [0] TA = Some ec /\ resolve_endpoint ec <> "" /\
     resolve_possible 9 (env_res (AError "invalid_trust_chain")) (SimpleR (resolve_endpoint ec)) [0] (Req LEAF [TA; OTHER] []) = Done (Ok (false, true)) /\
     resolve_possible 9 (env_res (AError "server_error")) (SimpleR (resolve_endpoint ec)) [0] (Req LEAF [TA; OTHER] []) = Done (Ok (false, false))) /\
  possible_contacts 9 (env_res (AError "invalid_trust_chain")) SmartR [] (Req LEAF [TA; OTHER] []) =
    [ToEntity [0] TA; ToResolver [0] "https://ta.example/resolve" (Req LEAF [TA; OTHER] [])] /\
  In (ToEntity [1] OTHER) (possible_contacts 9 (env_res (AError "server_error")) SmartR [] (Req LEAF [TA; OTHER] [])).
Proof. exact settled_case. Qed.

(** The answers to the requests determine the results of all resolvers: there are no others. *)
Theorem C161_payload : forall e e' fuel r p rq, differ_in_answers e e' ->
  (forall c, In c (payload_contacts fuel e r p rq) -> answered_same e e' c) ->
  payload_contacts fuel e' r p rq = payload_contacts fuel e r p rq /\ resolve_payload fuel e' r p rq = resolve_payload fuel e r p rq.
Proof. exact (fun e e' fuel r p rq D => payload_answers e e' D fuel r p rq). Qed.
Print Assumptions C161_payload.

Theorem C161_metadata : forall e e' fuel r p rq, differ_in_answers e e' ->
  (forall c, In c (metadata_contacts fuel e r p rq) -> answered_same e e' c) ->
  metadata_contacts fuel e' r p rq = metadata_contacts fuel e r p rq /\ resolve_metadata fuel e' r p rq = resolve_metadata fuel e r p rq.
Proof. exact (fun e e' fuel r p rq D => metadata_answers e e' D fuel r p rq). Qed.
Print Assumptions C161_metadata.

Theorem C161_possible : forall e e' fuel r p rq, differ_in_answers e e' ->
  (forall c, In c (possible_contacts fuel e r p rq) -> answered_same e e' c) ->
  possible_contacts fuel e' r p rq = possible_contacts fuel e r p rq /\ resolve_possible fuel e' r p rq = resolve_possible fuel e r p rq.
Proof. exact (fun e e' fuel r p rq D => possible_answers e e' D fuel r p rq). Qed.
Print Assumptions C161_possible.

Example C161_answers_case : differ_in_answers (env_res (ABody "forged")) (quiet_env (env_res (ABody "forged"))) /\
  (forall c, In c (payload_contacts 9 (env_res (ABody "forged")) SmartR [] (Req LEAF [TA; OTHER] [])) ->
     answered_same (env_res (ABody "forged")) (quiet_env (env_res (ABody "forged"))) c) /\
  resolve_payload 9 (env_res (ABody "forged")) LocalR [] (Req LEAF [TA] []) <>
  resolve_payload 9 (quiet_env (env_res (ABody "forged"))) LocalR [] (Req LEAF [TA] []).
Proof. exact c161_answers_case. Qed.
