(** Theorems on reading documents. *)
From Coq Require Import QArith.
From Verif Require Import Base GoVal Policy Schema Metadata Chain Resolver FloatTime SpecTime Json SpecJson TrustMark SpecTrustMark
  WitnessResolver WitnessTrustMark Leaf WitnessLeaf Jwt Refresher Cache ListCache Web Config SpecDecode DecodeFacts DecodeLaws NoPanicFacts
  TrustMarkFacts WitnessDecode Discovery Statement Collection CalmFacts.
Local Open Scope nat_scope.
Local Open Scope string_scope.

(** ** C117 Malformed documents are reported as errors *)

(** JWTs of any kind. *)
Theorem C117_jwts : forall cx e typ jwt,
  parse_typed cx typ jwt <> Panic /\ parse_mark e jwt <> Panic /\ parse_delegation e jwt <> Panic /\ parse_response e jwt <> Panic.
Proof. exact (fun cx e typ jwt => conj (jwt_calm cx typ jwt) (conj (parse_mark_no_panic e jwt) (conj (parse_delegation_no_panic e jwt) (response_calm e jwt)))). Qed.
Print Assumptions C117_jwts.

(** JSON decoded into a new or an existing object. *)
Theorem C117_json : forall j,
  (forall fs vs, In fs extra_types -> unmarshal_with_extra fs j vs <> Panic) /\
  (forall vs, unmarshal_with_extra token_fields j vs <> Panic) /\
  (forall r, unmarshal_response j r <> Panic) /\ (forall t, unmarshal_info j t <> Panic) /\
  unmarshal_policies j <> Panic /\
  (forall T (dec : json -> option T), unmarshal_sos dec j <> Panic) /\
  (forall K (kc : keycodec K), dec_keys kc j <> Panic).
Proof.
  exact (fun j => conj (fun fs vs => structs_calm fs j vs) (conj (token_calm j) (conj (responses_calm j) (conj (infos_calm j)
    (conj (policies_calm j) (conj (fun T dec => sos_calm dec j) (fun K kc => keys_calm kc j))))))).
Qed.
Print Assumptions C117_json.
Theorem C117_metadata : forall schema object, decode_meta schema object <> Panic.
Proof. exact meta_calm. Qed.
Print Assumptions C117_metadata.

Theorem C117_collections : forall jws j, dec_collected jws j <> Panic /\ unmarshal (collection_fields jws) j <> Panic.
Proof. exact collection_calm. Qed.
Print Assumptions C117_collections.

(** Configuration files in YAML. *)
Theorem C117_yaml : forall y,
  (forall s, unmarshal_yspec y s <> Panic) /\ (forall d, yduration d y <> Panic) /\
  (forall T (dec : yaml -> option T) old, unmarshal_ysos dec old y <> Panic) /\
  (forall K (kc : keycodec K) old, dec_keys_yaml kc old y <> Panic).
Proof. exact (fun y => conj (yspec_calm y) (conj (fun d => duration_calm d y) (conj (fun T dec old => ysos_calm dec old y) (fun K kc old => keys_yaml_calm kc old y)))). Qed.
Print Assumptions C117_yaml.
Theorem C117_configuration : forall parse sub endpoint sign c, verify_mconfig parse sub endpoint sign c <> Panic.
Proof. exact verify_config_calm. Qed.
Print Assumptions C117_configuration.

(** Replies of other entities. *)
Theorem C117_replies : forall err_of r, (forall D (parse : string -> res D), (forall b, parse b <> Panic) -> http_document err_of parse r <> Panic) /\
  forall t0 t1 endpoint reply k, fst (fetch_list t0 t1 endpoint reply k) <> Panic.
Proof. exact (fun err_of r => conj (fun D parse => document_calm err_of parse r) listing_calm). Qed.
Print Assumptions C117_replies.

Example C117_case :
  unmarshal_yspec bad_spec zero_yspec = Err /\ unmarshal_yspec (YMap [("lifetime", YNum 60 "60")]) zero_yspec <> Err /\
  unmarshal_policies bad_policies = Err /\ unmarshal_policies (JObj [("openid_provider", JObj [])]) <> Err /\
  decode entity_statement_fields (JObj [("iat", JStr "now")]) = Err /\
  fst (fetch_list 0%Z 0%Z "https://ta.example/list" RFailed (Memory [])) = Err.
Proof. exact c117_case. Qed.

(** ** C118 A code exchange reports what the token endpoint answered *)

Theorem C118_refused : forall fuel e p x f h issuer code redirect additional op jwt body,
  resolve_op fuel e p (lf_anchors f) issuer = Done (Ok (Some op)) ->
  client_assertion x (lf_producer f) (op_str "TokenEndpoint" op) = Ok jwt ->
  (forall form, lo_post x (op_str "TokenEndpoint" op) form = Some body) ->
  forall vs, fst (code_exchange fuel e p x f h issuer code redirect additional) = Done (Ok (Refused vs)) <->
    exists error description, vs = [GStr error; GStr description] /\ refusal body error description.
Proof. exact exchange_refused. Qed.
Print Assumptions C118_refused.

Theorem C118_granted : forall fuel e p x f h issuer code redirect additional op jwt body,
  resolve_op fuel e p (lf_anchors f) issuer = Done (Ok (Some op)) ->
  client_assertion x (lf_producer f) (op_str "TokenEndpoint" op) = Ok jwt ->
  (forall form, lo_post x (op_str "TokenEndpoint" op) form = Some body) ->
  forall ts, (exists extra, fst (code_exchange fuel e p x f h issuer code redirect additional) = Done (Ok (Tokens ts extra)) /\
      says_others body ["access_token"; "token_type"; "expires_in"; "refresh_token"; "scope"; "id_token"] extra) <->
    exists access typ expires refresh scope id,
      ts = [GStr access; GStr typ; GRaw expires; GStr refresh; GStr scope; GStr id] /\
      token_reply body access typ expires refresh scope id.
Proof. exact exchange_granted. Qed.
Print Assumptions C118_granted.

Example C118_case : exists op,
  resolve_op 9 (env_op AUTH) [] (lf_anchors leaf_me) LEAF = Done (Ok (Some op)) /\
  client_assertion (x0 granted0) (lf_producer leaf_me) (op_str "TokenEndpoint" op) = Ok "signed" /\
  (forall form, lo_post (x0 granted0) (op_str "TokenEndpoint" op) form = Some granted0) /\
  token_reply granted0 "at" "Bearer" (JNum (3600 # 1)) "" "openid" "it" /\
  refusal refused0 "invalid_grant" "used before" /\
  fst (code_exchange 9 (env_op AUTH) [] (x0 (JObj [("access_token", JNum 1)])) leaf_me heap0 LEAF "c0de" "cb" None) = Done Err.
Proof. exact c118_case. Qed.

(** ** C119 Trust marks and delegations say what their claims say *)

Theorem C119_mark : forall e jwt m, parse_mark e jwt = Ok m ->
  exists j, te_parse e jwt = Some ("trust-mark+jwt", j) /\ mark_says j m /\ mk_msg m = Some jwt.
Proof. exact mark_read. Qed.
Print Assumptions C119_mark.
Theorem C119_mark_accepted : forall e jwt j m, te_parse e jwt = Some ("trust-mark+jwt", j) -> mark_says j m ->
  exists m', parse_mark e jwt = Ok m' /\ mark_says j m'.
Proof. exact mark_readable. Qed.
Print Assumptions C119_mark_accepted.

Theorem C119_delegation : forall e jwt d, parse_delegation e jwt = Ok d ->
  exists j, te_parse e jwt = Some ("trust-mark-delegation+jwt", j) /\ delegation_says j d /\ dg_msg d = Some jwt.
Proof. exact delegation_read. Qed.
Print Assumptions C119_delegation.
Theorem C119_delegation_accepted : forall e jwt j d, te_parse e jwt = Some ("trust-mark-delegation+jwt", j) -> delegation_says j d ->
  exists d', parse_delegation e jwt = Ok d' /\ delegation_says j d'.
Proof. exact delegation_readable. Qed.
Print Assumptions C119_delegation_accepted.

(** The members of a trust_marks claim. *)
Theorem C119_info : forall j t, unmarshal_info j (Info "" "" [] None) = Ok t -> info_says j t /\ ti_mark t = None.
Proof. exact info_read. Qed.
Print Assumptions C119_info.
Theorem C119_info_accepted : forall j t, info_says j t -> exists t', unmarshal_info j (Info "" "" [] None) = Ok t' /\ info_says j t'.
Proof. exact info_readable. Qed.
Print Assumptions C119_info_accepted.

Example C119_case : mark_says mark_json mark_read0 /\
  (forall m, ~ mark_says (JObj [("iss", JNum 1)]) m) /\
  delegation_says (JObj [("iss", JStr TA); ("sub", JStr ISS); ("trust_mark_type", JStr "tm1"); ("iat", JNum 100)])
    (Deleg TA ISS "tm1" (seconds 100) None "" [] (Some "d")) /\
  info_says (JObj [("trust_mark_type", JStr "tm1"); ("trust_mark", JStr "m")]) (Info "tm1" "m" [] None).
Proof. exact c119_case. Qed.

(** ** C120 Issued trust marks and delegations carry the standard claims *)

Theorem C120_mark : forall sign ent specs now typ sub lf t spec, lookup typ specs = Some spec -> NoDup (keys (ms_extra spec)) ->
  issue_mark sign ent specs now typ sub lf = Ok t ->
  let life := match lf with Some l => l | None => ms_lifetime spec end in
  exists j, sign "trust-mark+jwt" j = Some (ti_jwt t) /\
    forall k, claim k j = mark_claims ent sub (ms_type spec) now (if Z.eqb life 0 then None else Some (now + life)%Z)
                            (ms_logo spec) (ms_ref spec) (ms_deleg spec) (ms_extra spec) k.
Proof. exact issued_claims. Qed.
Print Assumptions C120_mark.

(** Whether there is an exp claim depends on the configured lifetime (see C44). *)
Theorem C120_delegation : forall sign ent specs now typ sub lf w spec, lookup typ specs = Some spec -> NoDup (keys (ow_extra spec)) ->
  delegate sign ent specs now typ sub lf = Ok w ->
  let life := match lf with Some l => l | None => ow_lifetime spec end in
  exists j, sign "trust-mark-delegation+jwt" j = Some w /\
    forall k, claim k j = delegation_claims ent sub (ow_id spec) now (if Z.eqb (ow_lifetime spec) 0 then None else Some (now + life)%Z)
                            (ow_ref spec) (ow_extra spec) k.
Proof. exact delegated_claims. Qed.
Print Assumptions C120_delegation.

Example C120_case :
  lookup "tm1" (new_issuer [spec120]) = Some spec120 /\ NoDup (keys (ms_extra spec120)) /\
  (exists t, issue_mark sign120 ISS (new_issuer [spec120]) (seconds 100) "tm1" LEAF None = Ok t) /\
  lookup "tm1" [("tm1", own120)] = Some own120 /\
  (exists w, delegate sign120 TA [("tm1", own120)] (seconds 100) "tm1" ISS None = Ok w).
Proof. exact c120_case. Qed.
