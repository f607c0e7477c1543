(** Property theorems about where requests go and which replies are used (C100-C104).
    [..._refuted] gives a counterexample to the full statement of the property, [..._partial]
    the version that holds. *)
From Verif Require Import Base GoVal Policy Schema Metadata Chain Resolver SpecResolver TrustMark Json Leaf SpecLeaf
  Web SpecWeb WebFacts UrlFacts SpecBracket BracketFacts WitnessResolver WitnessWeb.
Local Open Scope nat_scope.
Local Open Scope string_scope.

(** ** C100 The host that naming constraints are compared with is the host that is contacted *)

Theorem C100_same_host : forall id h, hostname id = Some h -> h <> "" -> hostname (config_url id) = Some h.
Proof. exact hostname_config. Qed.
Print Assumptions C100_same_host.
(** Also with the port *)
Theorem C100_same_port : forall id h, url_host id = Some h -> h <> "" -> url_host (config_url id) = Some h.
Proof. exact host_config. Qed.
Print Assumptions C100_same_port.

(** The host of an ordinary URL is the host it names, whatever the other parts are, *)
Theorem C100_ordinary : forall scheme user host port path query fragment,
  ordinary_url scheme user host port path query fragment ->
  hostname (url_of scheme user host port path query fragment) = Some host /\
  url_host (url_of scheme user host port path query fragment) = Some (host ++ port).
Proof. exact ordinary_host. Qed.
Print Assumptions C100_ordinary.

(** ... the one of a URL with an IPv6 address is the address, *)
Theorem C100_address : forall scheme user addr port path query fragment,
  ordinary_rest scheme user path query fragment -> address_literal addr port ->
  hostname (url_of scheme user ("[" ++ addr ++ "]") port path query fragment) = Some addr /\
  url_host (url_of scheme user ("[" ++ addr ++ "]") port path query fragment) = Some ("[" ++ addr ++ "]" ++ port).
Proof. exact bracket_host. Qed.
Print Assumptions C100_address.
Example C100_address_case :
  ordinary_rest "https" "me@" "/tenant" "?x=1" "#f" /\ address_literal "2001:db8::1" ":443" /\ address_literal "::1" "".
Proof.
  split; [|split].
  - constructor; [exists "h"%char, "ttps"|right; exists "me"|split; [discriminate|]|now left|right; exists "tenant"|right; exists "x=1"|right; exists "f"].
    1: split; [reflexivity|split]; apply only_set; reflexivity.
    2: apply only_set; reflexivity.
    all: split; [reflexivity|apply only_set; reflexivity].
  - split; [now apply only_set|right; exists "443"; split; [reflexivity|now apply only_set]].
  - split; [now apply only_set|now left].
Qed.

(** ... a URL whose host is followed by something else than a port has none, *)
Theorem C100_bad_port : forall scheme user host port path query fragment,
  ordinary_rest scheme user path query fragment -> only (alphabet ++ decimals ++ "-._~!$&'()*+,;=") host -> not_decimal port ->
  hostname (url_of scheme user host (":" ++ port) path query fragment) = None /\
  (forall addr, address_literal addr "" ->
    hostname (url_of scheme user ("[" ++ addr ++ "]") port path query fragment) = None /\
    hostname (url_of scheme user ("[" ++ addr ++ "]") (":" ++ port) path query fragment) = None).
Proof. exact bad_port. Qed.
Print Assumptions C100_bad_port.
Example C100_bad_port_case : not_decimal "44x" /\ url_of "https" "" "leaf.example" ":44x" "" "" "" = "https://leaf.example:44x".
Proof. exact (conj not_decimal_case eq_refl). Qed.

(** ... and never contains a separator of URLs, not even where one was escaped. *)
Theorem C100_no_separator : forall id h, hostname id = Some h ->
  forall a c b, h = a ++ String c b -> ~ separates c /\ 32 < nat_of_ascii c.
Proof. exact host_no_separator. Qed.
Print Assumptions C100_no_separator.

Example C100_ordinary_case :
  ordinary_url "https" "me@" "leaf.example" ":8443" "/tenant" "?x=https://evil.example" "#@evil" /\
  url_of "https" "me@" "leaf.example" ":8443" "/tenant" "?x=https://evil.example" "#@evil"
    = "https://me@leaf.example:8443/tenant?x=https://evil.example#@evil" /\
  hostname "https://leaf%2Fevil.example/" = None /\ hostname "https://leaf.example%40evil/" = None.
Proof. exact c100_ordinary_case. Qed.

Example C100_case : hostname "https://user@Leaf.example:8443/tenant/a?x=1#f" = Some "Leaf.example" /\
  hostname (config_url "https://user@Leaf.example:8443/tenant/a") = Some "Leaf.example" /\
  config_url "https://leaf.example/" = "https://leaf.example/.well-known/openid-federation" /\
  hostname "https://[2001:db8::1]:443/a" = Some "2001:db8::1" /\
  hostname "https://leaf.example:port" = None.
Proof. exact c100_case. Qed.

(** ** C101 Naming constraints hold for host names, label by label and in any case *)

(** What a constraint matches, for hosts as net/url sees them *)
Theorem C101_labels : forall w c id, real_urls w ->
  name_matches w c id <-> exists h, hostname id = Some h /\ stands_for c h.
Proof. exact stands_for_names. Qed.
Print Assumptions C101_labels.

(** Missing: excluded names or hosts with upper-case letters (C101_refuted). *)
Theorem C101_names_partial : forall w tas types start c low s co n x,
  real_urls w -> self_named w start -> returned w tas types start c -> subordinate c low s ->
  st_constraints s = Some co -> co_naming co = Some n -> In x (low ++ [s])%list ->
  (forall y h, In y (nc_excluded n) -> hostname (st_sub x) = Some h -> lower_case y = y -> lower_case h = h -> ~ named_by y h) /\
  (forall l, nc_permitted n = Some l -> exists y h, In y l /\ hostname (st_sub x) = Some h /\ named_by y h).
Proof. exact chain_names. Qed.
Print Assumptions C101_names_partial.

Example C101_case : real_urls (with_urls (net LEAF leaf0 None only_example [])) /\
  self_named (with_urls (net LEAF leaf0 None only_example [])) LEAF /\
  returned (with_urls (net LEAF leaf0 None only_example [])) tas0 [] LEAF (chain0 leaf0 None only_example []) /\
  subordinate (chain0 leaf0 None only_example []) [leaf0; im_sub LEAF None []] (ta_sub only_example) /\
  named_by ".Example" "leaf.example" /\ ~ named_by ".example" "example" /\ ~ named_by ".evil.example" "devil.example".
Proof. exact c101_case. Qed.

Theorem C101_refuted : exists w tas types start c low s co n x y h,
  real_urls w /\ self_named w start /\ returned w tas types start c /\ subordinate c low s /\
  st_constraints s = Some co /\ co_naming co = Some n /\ In x (low ++ [s])%list /\
  In y (nc_excluded n) /\ hostname (st_sub x) = Some h /\ named_by y h.
Proof. exact c101_witness. Qed.
Print Assumptions C101_refuted.

(** ** C102 Different entities have different configuration URLs *)

(** Missing: identifiers that differ in one final slash (C102_refuted). *)
Theorem C102_distinct_partial : forall a b, config_url a = config_url b -> a = b \/ a = b ++ "/" \/ b = a ++ "/".
Proof. exact config_url_exact. Qed.
Print Assumptions C102_distinct_partial.
(** Every identifier without a final slash shares its URL with another one. *)
Theorem C102_slash : forall a, (forall b, a <> b ++ "/") -> config_url (a ++ "/") = config_url a.
Proof. exact config_url_slash. Qed.
Print Assumptions C102_slash.
Theorem C102_refuted : exists a b, a <> b /\ config_url a = config_url b.
Proof. exact c102_witness. Qed.
Print Assumptions C102_refuted.

Example C102_case : config_url "https://leaf.example" <> config_url "https://leaf.example//" /\
  config_url "https://leaf.example" <> config_url "https://leaf.example.evil".
Proof. split; discriminate. Qed.

(** ** C103 Requests ask exactly for what the caller wants *)

(** The query of the endpoint is kept and the parameters are added; the rest of the URL stays. *)
Theorem C103_query : forall canon endpoint params u k, keeps_base canon -> NoDup (keys params) ->
  request_url canon endpoint params = Some u ->
  url_values k u = (url_values k endpoint ++ match lookup k params with Some v => items v | None => [] end)%list.
Proof. exact request_values. Qed.
Print Assumptions C103_query.
Theorem C103_rest : forall canon endpoint params u, keeps_base canon -> request_url canon endpoint params = Some u ->
  canon (base_of endpoint) = Some (base_of u) /\ fragment_of u = fragment_of endpoint.
Proof. exact request_base. Qed.
Print Assumptions C103_rest.

(** Missing: endpoints with a query of their own (C103_refuted_own). *)
Theorem C103_fetch_partial : forall canon endpoint sub u, keeps_base canon -> plain_endpoint endpoint ->
  request_url canon endpoint (fetch_params sub) = Some u -> asks_for u (fetch_wants sub).
Proof. exact fetch_asks. Qed.
Print Assumptions C103_fetch_partial.
Theorem C103_mark_partial : forall canon endpoint typ sub u, keeps_base canon -> plain_endpoint endpoint ->
  request_url canon endpoint (mark_params typ sub) = Some u -> asks_for u (mark_wants typ sub).
Proof. exact mark_asks. Qed.
Print Assumptions C103_mark_partial.
Theorem C103_resolve_partial : forall canon endpoint r u, keeps_base canon -> plain_endpoint endpoint ->
  request_url canon endpoint (resolve_params r) = Some u -> asks_for u (resolve_wants r).
Proof. exact resolve_asks. Qed.
Print Assumptions C103_resolve_partial.
(** Missing as well: the name query (C103_refuted). *)
Theorem C103_collection_partial : forall canon endpoint r u k, keeps_base canon -> plain_endpoint endpoint ->
  request_url canon endpoint (collection_params r) = Some u -> k <> "name_query" -> k <> "NameQuery" ->
  url_values k u = collection_wants r k.
Proof. exact collection_asks. Qed.
Print Assumptions C103_collection_partial.

Example C103_case : keeps_base checked /\ plain_endpoint "https://im.example/fetch" /\
  request_url checked "https://im.example/fetch" (fetch_params "https://leaf.example/a&b=c") =
    Some "https://im.example/fetch?sub=https%3A%2F%2Fleaf.example%2Fa%26b%3Dc" /\
  request_url checked "https://im.example/fetch?tenant=1" (mark_params "https://m.example" "https://leaf.example") =
    Some "https://im.example/fetch?tenant=1&sub=https%3A%2F%2Fleaf.example&trust_mark_type=https%3A%2F%2Fm.example" /\
  plain_endpoint "https://ta.example/resolve" /\
  request_url checked "https://ta.example/resolve" (resolve_params (ResolveRequest "https://leaf.example" ["https://ta.example"] [])) =
    Some "https://ta.example/resolve?sub=https%3A%2F%2Fleaf.example&trust_anchor=https%3A%2F%2Fta.example".
Proof. exact c103_case. Qed.

(** The name query is never sent under its name. *)
Theorem C103_name_query : forall canon endpoint r u, keeps_base canon -> plain_endpoint endpoint ->
  request_url canon endpoint (collection_params r) = Some u -> url_values "name_query" u = [].
Proof. exact collection_drops. Qed.
Print Assumptions C103_name_query.
Theorem C103_refuted : exists canon endpoint r u, keeps_base canon /\ plain_endpoint endpoint /\
  request_url canon endpoint (collection_params r) = Some u /\
  collection_wants r "name_query" = ["bank"] /\ url_values "name_query" u = [].
Proof. exact c103_witness. Qed.
Print Assumptions C103_refuted.
Theorem C103_refuted_own : exists canon endpoint sub other u, keeps_base canon /\ sub <> other /\
  request_url canon endpoint (fetch_params sub) = Some u /\ url_values "sub" u = [other; sub].
Proof. exact c103_own. Qed.
Print Assumptions C103_refuted_own.

(** ** C104 Documents are only taken from successful responses *)

(** Exactly which replies are used. Missing: the status (C104_refuted). *)
Theorem C104_used_partial : forall (D : Type) err_of (parse : string -> res D) r d,
  http_document err_of parse r = Ok d <->
  exists status is_json body, r = HReply status is_json body /\ parse body = Ok d /\
    (400 <= status -> is_json = true -> err_of body = "").
Proof. exact @document_exact. Qed.
Print Assumptions C104_used_partial.
Theorem C104_any_status : forall (D : Type) err_of (parse : string -> res D) status body d,
  parse body = Ok d -> http_document err_of parse (HReply status false body) = Ok d.
Proof. exact @document_any_status. Qed.
Print Assumptions C104_any_status.
Theorem C104_refuted : exists (D : Type) err_of (parse : string -> res D) r d, ~ success r /\ http_document err_of parse r = Ok d.
Proof. exact c104_witness. Qed.
Print Assumptions C104_refuted.

Example C104_case : http_document (fun b => if String.eqb b "{""error"":""not_found""}" then "not_found" else "") (fun b => Ok b)
    (HReply 404 true "{""error"":""not_found""}") = (Err : res string) /\
  http_document (fun _ => "") (fun b => Ok b) (HReply 200 false "jwt") = Ok "jwt".
Proof. exact c104_case. Qed.
