(** Theorems C121-C123 on entity statements and resolve responses as they arrive, and their
    part of C117. *)
From Coq Require Import QArith.
From Verif Require Import Base GoVal Policy Schema Metadata SpecPolicy SpecMetadata Chain Resolver SpecResolver SpecChain SpecAuth
  FloatTime SpecTime Json SpecJson TrustMark Leaf Config SpecDecode Statement SpecStatement StatementLaws StatementChains WitnessResolver WitnessAuth WitnessStatement.
From Verif Require Import GoVal.
Local Open Scope nat_scope.
Local Open Scope string_scope.

(** Entity statements and resolve responses (C117). *)
Theorem C117_statements : forall parse kc jws jwt j, parse_statement parse kc jwt <> Panic /\ dec_statement kc jwt j <> Panic /\ dec_response jws j <> Panic.
Proof. exact (fun parse kc jws jwt j => conj (parse_calm parse kc jwt) (conj (statement_calm kc jwt j) (dec_response_calm jws j))). Qed.
Print Assumptions C117_statements.

(** ** C121 Entity statements and resolve responses say what their claims say *)

(** What is parsed has the right type, and for a document with ordinary names and numbers it
    consists of what the claims say. *)
Theorem C121_parsed : forall parse kc jwt s, parse_statement parse kc jwt = Ok s ->
  exists j, parse jwt = Some ("entity-statement+jwt", j) /\ st_jwt s = jwt /\ (plain j -> statement_says kc j s).
Proof. exact parsed_says. Qed.
Print Assumptions C121_parsed.

(** The claims that decide about trust, for every document. *)
Theorem C121_basics : forall kc jwt j s, dec_statement kc jwt j = Ok s ->
  is_object j /\ says_text j "iss" (st_iss s) /\ says_text j "sub" (st_sub s) /\
  says_time j "iat" (st_iat s) /\ says_time j "exp" (st_exp s) /\
  says (key_set kc) None j "jwks" (st_jwks s) /\ says texts_or_none [] j "authority_hints" (st_hints s) /\ st_jwt s = jwt.
Proof. exact statement_basics. Qed.
Print Assumptions C121_basics.

(** Every well-formed statement is parsed. *)
Theorem C121_accepted : forall parse kc jwt j s, parse jwt = Some ("entity-statement+jwt", j) -> plain j -> statement_says kc j s ->
  exists s', parse_statement parse kc jwt = Ok s'.
Proof. exact said_parsed. Qed.
Print Assumptions C121_accepted.

(** Resolve responses. *)
Theorem C121_response : forall jws j p, plain j -> dec_response jws j = Ok p -> response_says jws j p.
Proof. exact response_read. Qed.
Print Assumptions C121_response.
Theorem C121_response_accepted : forall jws j p, plain j -> response_says jws j p -> exists p', dec_response jws j = Ok p'.
Proof. exact response_readable. Qed.
Print Assumptions C121_response_accepted.

Example C121_case :
  plain leaf_doc /\ plain ta_doc /\ plain sub_doc /\
  parse_statement parse1 kc_texts "kl:leaf" = Ok leaf1 /\ parse_statement parse1 kc_texts "kt:sub" = Ok sub1 /\ parse_statement parse1 kc_texts "kt:ta" = Ok ta1 /\
  st_exp leaf1 = (1000 * 1000000000)%Z /\ st_hints leaf1 = [TA] /\ st_marks leaf1 = [("tm1", "eyJ")] /\ st_mark_owners ta1 = [("tm1", (IM, Some ["ko"]))] /\
  option_map co_max_path (st_constraints sub1) = Some (Some 1%Z) /\
  dec_statement kc_texts "x" (document TA TA "kt" [("metadata_policy", JObj [("shop", JObj [])])]) = Err /\
  dec_statement kc_texts "x" (document TA TA "kt" [("authority_hints", JStr TA)]) = Err /\
  (exists p, dec_response (fun _ => true) (JObj [("trust_chain", JArr [JStr "a.b.c"]); ("metadata", JObj [])]) = Ok p /\ pl_chain p = ["a.b.c"]).
Proof. exact c121_case. Qed.

(** ** C122 Resolved metadata is what signed documents say *)

(** Whoever answers the requests with whatever bytes: the resolved metadata is what a JWT says
    that an entity has signed, with the policies that the JWTs of the superiors say.
    Missing: chains of one statement (C122_refuted). *)
Theorem C122_documents_partial : forall parse kc get fetch now verify host (owns signed : string -> string -> Prop) tas types start e r md,
  let w := world_of parse kc get fetch now verify host in
  (forall id jwt ks, (forall k, In k ks -> owns id k) -> verify jwt ks = true -> signed id jwt) ->
  (forall ta, In ta tas -> anchor_known w owns ta) ->
  returned w tas types start (e :: r) -> r <> [] ->
  (forall x, In x r -> careful (fun jwt => ok_or_none (parse_statement parse kc jwt)) owns signed (st_iss x)) ->
  chain_metadata (e :: r) = Ok md ->
  exists m pub pm, md = Some m /\ st_metadata pub = Some pm /\
    signed_statement parse kc signed (st_iss pub) pub /\ (forall s, In s r -> signed_statement parse kc signed (st_iss s) s) /\
    leaf_metadata (e :: r) = match types with [] => pm | _ => nil_all_except pm types end /\
    forall t, In t entity_types -> type_result t (e :: r) m.
Proof. exact resolved_documents. Qed.
Print Assumptions C122_documents_partial.

Example C122_case :
  (forall id jwt ks, (forall k, In k ks -> owns0 id k) -> w_verify net1 jwt ks = true -> signed0 id jwt) /\
  (forall ta, In ta tas0 -> anchor_known net1 owns0 ta) /\
  returned net1 tas0 [] LEAF chain1 /\ List.length chain1 = 3 /\ (forall id, careful dec1 owns0 signed0 id) /\
  exists m rp, chain_metadata chain1 = Ok (Some m) /\ md_rp m = Some rp /\ em_tag "client_name" rp = Some (VStr "App") /\
    em_tag "contacts" rp = Some (VSlice TStr false [VStr "ops@ta.example"]).
Proof. exact c122_case. Qed.

(** A chain of one statement has metadata although nobody has signed any statement. *)
Theorem C122_refuted : exists parse kc get fetch now verify host (owns signed : string -> string -> Prop) tas types start e m x,
  let w := world_of parse kc get fetch now verify host in
  (forall id jwt ks, (forall k, In k ks -> owns id k) -> verify jwt ks = true -> signed id jwt) /\
  (forall ta, In ta tas -> anchor_known w owns ta) /\ returned w tas types start [e] /\
  (forall id, careful (fun jwt => ok_or_none (parse_statement parse kc jwt)) owns signed id) /\
  chain_metadata [e] = Ok (Some m) /\ md_rp m = Some x /\ em_tag "client_name" x = Some (VStr "Forged") /\
  forall id pub, ~ signed_statement parse kc signed id pub.
Proof. exact c122_witness. Qed.
Print Assumptions C122_refuted.

(** ** C123 An attribute counts as set exactly if the metadata states it *)

(** Missing: metadata with an additional member named like the Go field of the attribute
    (C123_refuted). *)
Theorem C123_set_partial : forall sch x m r, In sch entity_schemas -> dec_entity sch x = Ok m -> In r sch -> fr_tag r <> "-" ->
  claim (fr_name r) x = None ->
  (attr_set (fr_tag r) m = true <-> stated (fr_tag r) x <> JNull).
Proof. exact set_says. Qed.
Print Assumptions C123_set_partial.

Example C123_case : exists m m', dec_entity rp_schema (JObj [("client_uri", JStr "https://leaf.example")]) = Ok m /\
  attr_set "client_name" m = false /\ attr_set "client_uri" m = true /\
  apply_policy m fallback = Ok m' /\ em_tag "client_name" m' = Some (VStr "Fallback").
Proof. exact c123_case. Qed.

Theorem C123_refuted : exists sch x m r, In sch entity_schemas /\ plain x /\ dec_entity sch x = Ok m /\ In r sch /\ fr_tag r <> "-" /\
  stated (fr_tag r) x = JNull /\ attr_set (fr_tag r) m = true.
Proof. exact c123_witness. Qed.
Print Assumptions C123_refuted.

(** The default of a superior's policy is then not applied. *)
Theorem C123_refuted_default : exists x m m', plain x /\ stated "client_name" x = JNull /\ dec_entity rp_schema x = Ok m /\
  apply_policy m [("client_name", [("default", VStr "Fallback")])] = Ok m' /\ em_tag "client_name" m' = Some (VStr "").
Proof. exact c123_default. Qed.
Print Assumptions C123_refuted_default.
