(** Properties of logins with the providers of a federation of entities that use this library. *)
From Coq Require Import QArith.
From Verif Require Import Base GoVal Policy Schema Metadata Chain Resolver SpecResolver Json TrustMark SpecTrustMark Leaf SpecLeaf WitnessLeaf Config Jwt Statement Encode SpecEncode
  WitnessResolver WitnessFederation Federation SpecFederation SpecFedLogin FedLoginFacts WitnessFedLogin.
Local Open Scope nat_scope.
Local Open Scope string_scope.

(** C140. A login with a provider of the federation can be started: its superiors vouch for it, and
    none of their policies is about the authorization endpoint. *)
Theorem C140_started : forall e p x f h y n redirect state scope l ep,
  asks e p f y n -> vouched_provider n f y -> op_says y "authorization_endpoint" ep ->
  (forall ch, provider_chain n f y ch -> unruled ch "authorization_endpoint") ->
  lo_canon x (base_of ep) <> None -> lo_uuid x <> None -> (forall o, lo_sign x (JObj o) <> None) ->
  exists fuel url h', get_authorization_url fuel e p x f h (pa_id y) redirect state scope l = (Done (Ok url), h').
Proof. exact login_succeeds. Qed.
Print Assumptions C140_started.

Example C140_started_case : asks (op_env None) [] rp_me p_op (op_net None) /\ vouched_provider (op_net None) rp_me p_op /\ op_says p_op "authorization_endpoint" login_at /\
  (forall ch, provider_chain (op_net None) rp_me p_op ch -> unruled ch "authorization_endpoint") /\
  lo_canon (x_op JNull) (base_of login_at) <> None /\ lo_uuid (x_op JNull) <> None /\ (forall o, lo_sign (x_op JNull) (JObj o) <> None).
Proof. exact c140_case. Qed.

(** The URL is at the authorization endpoint the provider states, and the request object in it is
    addressed to the issuer the provider states. *)
Theorem C140_address : forall fuel e p x f h y n c redirect state scope l url h',
  asks e p f y n -> sound_participant n y -> publishes n [] y c -> keeps_base (lo_canon x) -> NoDup (keys (read_values h l)) ->
  get_authorization_url fuel e p x f h (pa_id y) redirect state scope l = (Done (Ok url), h') ->
  exists ch, provider_chain n f y ch /\
    (forall ep, op_says y "authorization_endpoint" ep -> unruled ch "authorization_endpoint" ->
       lo_canon x (base_of ep) = Some (base_of url) /\ fragment_of url = fragment_of ep) /\
    (forall iss, op_says y "issuer" iss -> unruled ch "issuer" ->
       exists ro o, values_of "request" (read_query (query_of url)) = [ro] /\ lo_sign x (JObj o) = Some ro /\
         authorization_claims iss redirect state scope (read_values h l) o).
Proof. exact login_address. Qed.
Print Assumptions C140_address.

Example C140_address_case : asks (op_env (Some pol_op)) [] rp_me p_op (op_net (Some pol_op)) /\ sound_participant (op_net (Some pol_op)) p_op /\
  publishes (op_net (Some pol_op)) [] p_op c_op /\ keeps_base (lo_canon (x_op JNull)) /\ NoDup (keys (read_values heap0 (Some 1))) /\
  op_says p_op "authorization_endpoint" login_at /\ op_says p_op "issuer" LEAF /\
  (forall ch, provider_chain (op_net (Some pol_op)) rp_me p_op ch -> unruled ch "authorization_endpoint" /\ unruled ch "issuer" /\ unruled ch "token_endpoint" /\ ~ unruled ch "scopes_supported") /\
  exists h', get_authorization_url 9 (op_env (Some pol_op)) [] (x_op JNull) rp_me heap0 LEAF "https://me.example/cb" "st" "openid" (Some 1)
    = (Done (Ok "https://leaf.example/login?client_id=https%3A%2F%2Fme.example&redirect_uri=https%3A%2F%2Fme.example%2Fcb&request=signed&response_type=code&scope=openid#top"), h').
Proof. exact c140_address_case. Qed.

(** The code is redeemed at the token endpoint the provider states, with a client assertion
    addressed to it. *)
Theorem C140_code : forall fuel e p x f h y n c code redirect l r h',
  asks e p f y n -> sound_participant n y -> publishes n [] y c -> NoDup (keys (read_values h l)) ->
  code_exchange fuel e p x f h (pa_id y) code redirect l = (Done (Ok r), h') ->
  exists ch, provider_chain n f y ch /\
    forall ep, op_says y "token_endpoint" ep -> unruled ch "token_endpoint" ->
      exists jwt o form body, lo_post x ep form = Some body /\ lo_sign x (JObj o) = Some jwt /\
        assertion_claims (rp_id (lf_producer f)) ep (lo_now x) (rp_lifetime (lf_producer f)) o /\
        values_of "client_assertion" (read_query form) = [jwt] /\ values_of "code" (read_query form) = [code].
Proof. exact login_code. Qed.
Print Assumptions C140_code.

Example C140_code_case : op_says p_op "token_endpoint" token_at /\
  exists ts ex h', code_exchange 9 (op_env (Some pol_op)) [] (x_op tokens0) rp_me heap0 LEAF "c0de" "https://me.example/cb" (Some 1) = (Done (Ok (Tokens ts ex)), h').
Proof. exact c140_code_case. Qed.
