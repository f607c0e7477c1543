(** Property theorems about authorization requests and code exchanges (C64-C67, C79-C82).
    [..._refuted] gives a counterexample to the full statement of the property, [..._partial]
    the version that holds. *)
From Coq Require Import QArith.
From Verif Require Import Base GoVal Policy Schema Metadata Chain Resolver FloatTime Json TrustMark
  WitnessResolver WitnessTrustMark Leaf SpecLeaf LeafFacts WitnessLeaf.
Local Open Scope nat_scope.
Local Open Scope string_scope.

(** ** C64 Request objects carry exactly the mandated claims *)

Theorem C64_no_aud_refused : forall x rp h l, (forall m, any_at h l m -> lookup "aud" m = None) ->
  request_object x rp h l = (Err, h).
Proof. exact request_refused. Qed.
Print Assumptions C64_no_aud_refused.

(** What is signed: the producer's claims and the caller's other claims. *)
Theorem C64_claims : forall x rp h l m jwt h', any_at h l m -> NoDup (keys m) -> request_object x rp h l = (Ok jwt, h') ->
  lookup "aud" m <> None /\
  exists o, lo_sign x (JObj o) = Some jwt /\ request_claims (rp_id rp) (lo_now x) (rp_lifetime rp) m o.
Proof. exact request_ok. Qed.
Print Assumptions C64_claims.

Theorem C64_succeeds : forall x rp h l m, any_at h l m -> NoDup (keys m) -> lookup "aud" m <> None ->
  (forall k, lookup k m <> Some None) -> lo_uuid x <> None -> (forall o, lo_sign x (JObj o) <> None) ->
  exists jwt h', request_object x rp h l = (Ok jwt, h').
Proof. exact request_total. Qed.
Print Assumptions C64_succeeds.

Example C64_case : any_at heap0 (Some 0) claims0 /\ NoDup (keys claims0) /\
  (forall k, lookup k claims0 <> Some None) /\ lookup "aud" claims0 <> None /\
  exists h', request_object (x0 JNull) (Producer ME 60) heap0 (Some 0) = (Ok "signed", h').
Proof. exact c64_case. Qed.

(** ** C65 Callers cannot override protocol parameters *)

Theorem C65_authorization : forall fuel e p x f h issuer redirect state scope additional url h',
  keeps_base (lo_canon x) -> NoDup (keys (read_values h additional)) ->
  get_authorization_url fuel e p x f h issuer redirect state scope additional = (Done (Ok url), h') ->
  exists op ro o, resolve_op fuel e p (lf_anchors f) issuer = Done (Ok (Some op)) /\ lo_sign x (JObj o) = Some ro /\
    producer_claims (rp_id (lf_producer f)) (lo_now x) (rp_lifetime (lf_producer f)) o /\
    authorization_claims (op_str "Issuer" op) redirect state scope (read_values h additional) o /\
    lo_canon x (base_of (op_str "AuthorizationEndpoint" op)) = Some (base_of url) /\
    fragment_of url = fragment_of (op_str "AuthorizationEndpoint" op) /\
    forall k, values_of k (read_query (query_of url)) = url_params (lf_id f) redirect scope ro k.
Proof. exact authorization_ok. Qed.
Print Assumptions C65_authorization.

Theorem C65_code_exchange : forall fuel e p x f h issuer code redirect additional r h', NoDup (keys (read_values h additional)) ->
  code_exchange fuel e p x f h issuer code redirect additional = (Done (Ok r), h') ->
  exists op jwt o form body, resolve_op fuel e p (lf_anchors f) issuer = Done (Ok (Some op)) /\
    lo_sign x (JObj o) = Some jwt /\
    assertion_claims (rp_id (lf_producer f)) (op_str "TokenEndpoint" op) (lo_now x) (rp_lifetime (lf_producer f)) o /\
    lo_post x (op_str "TokenEndpoint" op) form = Some body /\
    (forall k, values_of k (read_query form) = token_params (lf_id f) code redirect jwt (read_values h additional) k) /\
    match r with
    | Refused vs => exists er, er <> "" /\ unmarshal error_fields body = Ok vs /\ hd_error vs = Some (GStr er)
    | Tokens ts ex => unmarshal_with_extra token_fields body (zeros token_fields) = Ok (ts, ex) /\
        exists vs, unmarshal error_fields body = Ok vs /\ hd_error vs = Some (GStr "")
    end.
Proof. exact exchange_ok. Qed.
Print Assumptions C65_code_exchange.

Example C65_case : keeps_base (lo_canon (x0 JNull)) /\ NoDup (keys (read_values heap0 (Some 1))) /\
  exists url h', get_authorization_url 9 (env_op AUTH) [] (x0 JNull) leaf_me heap0 LEAF "https://me.example/cb?x=1&y" "st" "openid email" (Some 1)
    = (Done (Ok url), h') /\
  url = "https://leaf.example/auth?client_id=https%3A%2F%2Fme.example&redirect_uri=https%3A%2F%2Fme.example%2Fcb%3Fx%3D1%26y&request=signed&response_type=code&scope=openid+email".
Proof. exact c65_case. Qed.
Example C65_exchange_case : NoDup (keys (read_values heap0 (Some 1))) /\
  exists ts ex h', code_exchange 9 (env_op AUTH) [] (x0 tokens0) leaf_me heap0 LEAF "c0de" "https://me.example/cb" (Some 1)
    = (Done (Ok (Tokens ts ex)), h') /\ hd_error ts = Some (GStr "at").
Proof. exact c65_exchange_case. Qed.

(** ** C66 Caller data is not modified *)

Theorem C66_refuted_request : exists x rp h l jwt h', request_object x rp h l = (Ok jwt, h') /\ ~ preserved h h'.
Proof. exact c66_request. Qed.
Print Assumptions C66_refuted_request.

(** The code and the client assertion end up in the caller's map. *)
Theorem C66_refuted_exchange : exists fuel e p x f h issuer code redirect l r h',
  code_exchange fuel e p x f h issuer code redirect l = (Done (Ok r), h') /\ ~ preserved h h' /\
  (exists a v, l = Some a /\ nth_error h' a = Some (CVals v) /\ lookup "code" v = Some (Some [code]) /\
               lookup "client_assertion" v <> None).
Proof. exact c66_exchange. Qed.
Print Assumptions C66_refuted_exchange.

Theorem C66_authorization : forall fuel e p x f h issuer redirect state scope additional,
  preserved h (snd (get_authorization_url fuel e p x f h issuer redirect state scope additional)).
Proof. exact authorization_preserves. Qed.
Print Assumptions C66_authorization.

(** No other map of the caller is changed. Missing: the passed one. *)
Theorem C66_request_partial : forall x rp h a b, b <> a -> nth_error (snd (request_object x rp h (Some a))) b = nth_error h b.
Proof. exact request_only. Qed.
Print Assumptions C66_request_partial.
Theorem C66_exchange_partial : forall fuel e p x f h issuer code redirect additional b, additional <> Some b ->
  nth_error (snd (code_exchange fuel e p x f h issuer code redirect additional)) b = nth_error h b.
Proof. exact exchange_only. Qed.
Print Assumptions C66_exchange_partial.


Example C66_case :
  fst (get_authorization_url 9 (env_op AUTH) [] (x0 JNull) leaf_me heap0 LEAF "cb" "st" "openid" (Some 1)) <> Done Err /\
  fst (request_object (x0 JNull) (Producer ME 60) heap0 (Some 0)) = Ok "signed" /\ 1 <> 0 /\
  (exists r, fst (code_exchange 9 (env_op AUTH) [] (x0 tokens0) leaf_me heap0 LEAF "c0de" "cb" (Some 1)) = Done (Ok r)) /\ Some 1 <> Some 0.
Proof. split; [vm_compute; discriminate|]. split; [vm_compute; reflexivity|]. split; [discriminate|]. split; [eexists; vm_compute; reflexivity|discriminate]. Qed.
(** ** C67 Authorization endpoint query parameters are retained *)

Theorem C67_refuted : exists fuel e p x f h issuer redirect state scope l op url h',
  keeps_base (lo_canon x) /\ resolve_op fuel e p (lf_anchors f) issuer = Done (Ok (Some op)) /\
  get_authorization_url fuel e p x f h issuer redirect state scope l = (Done (Ok url), h') /\
  values_of "tenant" (read_query (query_of (op_str "AuthorizationEndpoint" op))) = ["1"] /\
  values_of "tenant" (read_query (query_of url)) = [].
Proof. exact c67_witness. Qed.
Print Assumptions C67_refuted.

(** The rest of the endpoint is retained. Missing: the query. *)
Theorem C67_rest_partial : forall fuel e p x f h issuer redirect state scope additional url h',
  keeps_base (lo_canon x) -> NoDup (keys (read_values h additional)) ->
  get_authorization_url fuel e p x f h issuer redirect state scope additional = (Done (Ok url), h') ->
  exists op, resolve_op fuel e p (lf_anchors f) issuer = Done (Ok (Some op)) /\
    lo_canon x (base_of (op_str "AuthorizationEndpoint" op)) = Some (base_of url) /\
    fragment_of url = fragment_of (op_str "AuthorizationEndpoint" op).
Proof. exact authorization_rest. Qed.
Print Assumptions C67_rest_partial.


Example C67_case : keeps_base (lo_canon (x0 JNull)) /\ NoDup (keys (read_values heap0 (Some 1))) /\
  exists url h', get_authorization_url 9 (env_op AUTH) [] (x0 JNull) leaf_me heap0 LEAF "https://me.example/cb?x=1&y" "st" "openid email" (Some 1)
    = (Done (Ok url), h') /\
  url = "https://leaf.example/auth?client_id=https%3A%2F%2Fme.example&redirect_uri=https%3A%2F%2Fme.example%2Fcb%3Fx%3D1%26y&request=signed&response_type=code&scope=openid+email".
Proof. exact c65_case. Qed.
(** ** C79 Parameters cannot be injected through parameter values *)

Theorem C79_form_encoding : forall m k, NoDup (keys m) ->
  values_of k (read_query (encode m)) = match lookup k m with Some v => items v | None => [] end.
Proof. exact encode_spec. Qed.
Print Assumptions C79_form_encoding.

Example C79_case : NoDup (keys [("a&b=c", Some ["x y"; "%"; "+&"]); ("", Some [""])]) /\
  encode [("a&b=c", Some ["x y"; "%"; "+&"]); ("", Some [""])] = "=&a%26b%3Dc=x+y&a%26b%3Dc=%25&a%26b%3Dc=%2B%26".
Proof. exact c79_case. Qed.

(** ** C80 Client assertions *)

Theorem C80_assertion : forall x rp aud jwt, client_assertion x rp aud = Ok jwt ->
  exists o, lo_sign x (JObj o) = Some jwt /\ assertion_claims (rp_id rp) aud (lo_now x) (rp_lifetime rp) o.
Proof. exact assertion_ok. Qed.
Print Assumptions C80_assertion.

Example C80_case : client_assertion (x0 JNull) (Producer ME 60) "https://leaf.example/token" = Ok "signed".
Proof. exact c80_case. Qed.

(** ** C81 A token response is reported only if tokens were issued *)

Theorem C81_refuted : exists fuel e p x f h issuer code redirect l ts ex h',
  code_exchange fuel e p x f h issuer code redirect l = (Done (Ok (Tokens ts ex)), h') /\
  (forall ep form, lo_post x ep form = Some (JObj [])) /\ hd_error ts = Some (GStr "").
Proof. exact c81_witness. Qed.
Print Assumptions C81_refuted.

(** Missing: that an access token is present. *)
Theorem C81_no_error_partial : forall fuel e p x f h issuer code redirect additional ts ex h', NoDup (keys (read_values h additional)) ->
  code_exchange fuel e p x f h issuer code redirect additional = (Done (Ok (Tokens ts ex)), h') ->
  exists ep form body vs, lo_post x ep form = Some body /\ unmarshal error_fields body = Ok vs /\ hd_error vs = Some (GStr "") /\
    unmarshal_with_extra token_fields body (zeros token_fields) = Ok (ts, ex).
Proof. exact exchange_tokens. Qed.
Print Assumptions C81_no_error_partial.

Example C81_case : exists vs h', code_exchange 9 (env_op AUTH) [] (x0 (JObj [("error", JStr "invalid_grant")])) leaf_me heap0 LEAF "c0de" "cb" None
  = (Done (Ok (Refused vs)), h') /\ hd_error vs = Some (GStr "invalid_grant").
Proof. exact c81_case. Qed.

Example C81_tokens_case : NoDup (keys (read_values heap0 (Some 1))) /\
  exists ts ex h', code_exchange 9 (env_op AUTH) [] (x0 tokens0) leaf_me heap0 LEAF "c0de" "https://me.example/cb" (Some 1)
    = (Done (Ok (Tokens ts ex)), h') /\ hd_error ts = Some (GStr "at").
Proof. exact c65_exchange_case. Qed.
(** ** C82 Starting a login never crashes *)

Theorem C82_refuted : exists fuel e p x f h issuer redirect state scope l code,
  fst (get_authorization_url fuel e p x f h issuer redirect state scope l) = Done Panic /\
  fst (code_exchange fuel e p x f h issuer code redirect l) = Done Panic.
Proof. exact c82_witness. Qed.
Print Assumptions C82_refuted.

(** The only reasons. Missing: entities without OP metadata (and panics of the resolver). *)
Theorem C82_authorization_partial : forall fuel e p x f h issuer redirect state scope l,
  fst (get_authorization_url fuel e p x f h issuer redirect state scope l) = Done Panic <->
  resolve_op fuel e p (lf_anchors f) issuer = Done Panic \/ resolve_op fuel e p (lf_anchors f) issuer = Done (Ok None).
Proof. exact authorization_panics. Qed.
Print Assumptions C82_authorization_partial.
Theorem C82_code_exchange_partial : forall fuel e p x f h issuer code redirect l,
  fst (code_exchange fuel e p x f h issuer code redirect l) = Done Panic <->
  resolve_op fuel e p (lf_anchors f) issuer = Done Panic \/ resolve_op fuel e p (lf_anchors f) issuer = Done (Ok None).
Proof. exact exchange_panics. Qed.
Print Assumptions C82_code_exchange_partial.


Example C82_case :
  (exists op, resolve_op 9 (env_op AUTH) [] (lf_anchors leaf_me) LEAF = Done (Ok (Some op))) /\
  resolve_op 9 env_rp [] (lf_anchors leaf_me) LEAF = Done (Ok None).
Proof. split; [eexists|]; vm_compute; reflexivity. Qed.