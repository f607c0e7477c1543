(** Remote resolution of locally resolved metadata: theorems (C129). *)
From Coq Require Import QArith.
From Verif Require Import Base GoVal Policy Schema Metadata SpecMetadata Chain SpecChain Resolver SpecResolver FloatTime Json SpecJson TrustMark Leaf Config SpecConfig Refresher Jwt SpecJwt Statement SpecStatement
  Encode SpecEncode EncodeLaws Respond SpecRespond SpecRemote RemoteFacts WitnessResolver WitnessStatement WitnessEncode WitnessRespond WitnessRemote.
From Verif Require Import GoVal.
Local Open Scope nat_scope.
Local Open Scope string_scope.

(** ** C129 A client of a resolver gets the metadata the resolver has resolved *)

(** If the leaf spells an attribute in another case, the resolver applies the policy to it,
    and nevertheless signs the original value, which the client reads. *)
Theorem C129_refuted : exists parse kc get fetch now verify host keys fuel e0 pl cx jws s r m jwt e pl',
  (forall p rq, te_world e0 p rq = world_of parse kc get fetch now verify host) /\
  (forall t typ j, parse t = Some (typ, j) -> plain j) /\ (forall t, In t (pl_chain pl) -> jws t = true) /\
  local_payload keys fuel e0 [] rq0 = Done (Ok pl) /\ rp_payload r = pl /\ rp_extra r = [] /\
  sign_response cx s r = Ok m /\ cx_parse cx jwt = Some m /\ reads_with cx jws e /\
  (forall p ep rq, te_remote e p ep rq = ABody jwt) /\
  remote_payload e [] "https://ta.example/resolve" rq0 = Ok pl' /\
  (exists j, parse "kt:sub" = Some ("entity-statement+jwt", j) /\
     claim "metadata_policy" j = Some (JObj [("openid_relying_party", JObj [("grant_types", JObj [("subset_of", JArr [JStr "authorization_code"])])])])) /\
  In "kt:sub" (pl_chain pl) /\
  grants pl = Some (VSlice TStr true []) /\ grants pl' = Some (VSlice TStr false [VStr "password"]).
Proof. exact c129_refuted. Qed.
Print Assumptions C129_refuted.

(** If the documents of the chain have no member name that differs from a known one by case
    only, and none named "-", the client gets what the resolver has resolved. *)
Theorem C129_remote_partial : forall parse kc get fetch now verify host keys fuel e0 p0 rq0 pl cx jws s iss sub iat exp aud extra m jwt e p ep rq,
  te_world e0 p0 rq0 = world_of parse kc get fetch now verify host ->
  local_payload keys fuel e0 p0 rq0 = Done (Ok pl) ->
  (forall t, In t (pl_chain pl) -> jws t = true /\ forall typ j, parse t = Some (typ, j) -> tidy j) ->
  apart response_claims extra ->
  sign_response cx s (Response iss sub iat exp aud pl extra) = Ok m -> cx_parse cx jwt = Some m -> reads_with cx jws e -> te_remote e p ep rq = ABody jwt ->
  exists pl', remote_payload e p ep rq = Ok pl' /\ response_read pl pl'.
Proof. exact remote_same. Qed.
Print Assumptions C129_remote_partial.

Example C129_case : let e0 := resolver_env leaf_doc sub_doc in let r := answer_to leaf_doc sub_doc in
  (forall p rq, te_world e0 p rq = world_of (parse_docs leaf_doc sub_doc) kc_texts get0 fetch0 clock0 verify0 host_of) /\
  local_payload (issuer_keys 5 e0) 5 e0 [] rq0 = Done (Ok (rp_payload r)) /\ pl_chain (rp_payload r) = ["kl:leaf"; "kt:sub"; "kt:ta"] /\
  (forall t, In t (pl_chain (rp_payload r)) -> jws3 t = true /\ forall typ j, parse_docs leaf_doc sub_doc t = Some (typ, j) -> tidy j) /\
  apart response_claims (rp_extra r) /\ reads_with (cx_answer r) jws3 (client_env r) /\
  exists m pl' md x, sign_response (cx_answer r) ta_signer r = Ok m /\ cx_parse (cx_answer r) "a.b.c" = Some m /\
    remote_payload (client_env r) [] "https://ta.example/resolve" rq0 = Ok pl' /\
    pl_metadata pl' = Some md /\ md_rp md = Some x /\ em_tag "client_name" x = Some (VStr "App") /\ em_tag "contacts" x = Some (VSlice TStr false [VStr "ops@ta.example"]) /\
    lookup "tier" (extra_value x) = Some (VFloat 3).
Proof. exact c129_case. Qed.

(** Applying policies keeps the Go types of all attributes and the names of additional
    members: first for statements built in any way, then for decoded ones. *)
Theorem C129_kept : forall c md, (forall s, In s c -> read_policies s) -> given metadata_ok (match c with s :: _ => st_metadata s | [] => None end) ->
  chain_metadata c = Ok md -> given metadata_ok md.
Proof. exact chain_kept. Qed.
Print Assumptions C129_kept.

Theorem C129_types : forall parse kc get fetch now verify host c tas types start md,
  let w := world_of parse kc get fetch now verify host in
  returned w tas types start c -> (forall s typ j, In s c -> parse (st_jwt s) = Some (typ, j) -> tidy j) ->
  chain_metadata c = Ok md -> given metadata_ok md.
Proof. exact resolved_tidy. Qed.
Print Assumptions C129_types.

Example C129_types_case : returned (net_docs leaf_doc sub_doc) (map (fun id => Anchor id None) [TA]) [] LEAF chain1 /\
  (forall s typ j, In s chain1 -> parse_docs leaf_doc sub_doc (st_jwt s) = Some (typ, j) -> tidy j) /\ exists m, chain_metadata chain1 = Ok (Some m).
Proof. exact c129_types_case. Qed.
