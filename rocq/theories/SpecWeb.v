(** Specification of where requests go. *)
From Verif Require Import Base GoVal Policy Schema Metadata Chain Resolver TrustMark Json Leaf Web SpecLeaf.
Local Open Scope nat_scope.
Local Open Scope string_scope.

(** The labels of a domain name. *)
Definition labels (h : string) : list string := split "." h.
(** [h] is the domain [d] with one or more labels in front of it. *)
Definition below (d h : string) : Prop := exists l, l <> [] /\ labels h = (l ++ labels d)%list.
(** The hosts a naming constraint stands for (RFC 5280, 4.2.1.10): with a leading dot, the
    names below; without, the one host. *)
Definition stands_for (c h : string) : Prop :=
  (exists d, c = "." ++ d /\ below d h) \/ ((forall d, c <> "." ++ d) /\ h = c).

(** Names of hosts do not depend on the case of letters. *)
Fixpoint lower_case (s : string) : string :=
  match s with EmptyString => EmptyString | String c r => String (lower c) (lower_case r) end.
Definition named_by (c h : string) : Prop := stands_for (lower_case c) (lower_case h).

(** The world parses URLs as net/url does. *)
Definition real_urls (w : world) : Prop := forall id, w_host w id = hostname id.

(** Which values a parameter has in the query of a URL. *)
Definition url_values (k u : string) : list string := values_of k (read_query (query_of u)).

(** Which parameters the requests have to carry: the subject; the type and the subject of the
    wanted trust mark; what a resolve and what a collection request ask for. *)
Definition fetch_wants (sub k : string) : list string := if String.eqb k "sub" then [sub] else [].
Definition mark_wants (typ sub k : string) : list string :=
  if String.eqb k "trust_mark_type" then [typ] else if String.eqb k "sub" then [sub] else [].
Definition resolve_wants (r : resolve_request) (k : string) : list string :=
  if String.eqb k "sub" then [rq_sub r]
  else if String.eqb k "trust_anchor" then rq_anchors r
  else if String.eqb k "entity_type" then rq_types r
  else [].
Definition collection_wants (r : collection_request) (k : string) : list string :=
  if String.eqb k "from_entity_id" then [cr_from r]
  else if String.eqb k "limit" then [cr_limit r]
  else if String.eqb k "trust_mark_type" then cr_mark_types r
  else if String.eqb k "trust_anchor" then [cr_anchor r]
  else if String.eqb k "entity_type" then cr_types r
  else if String.eqb k "name_query" then [cr_name r]
  else if String.eqb k "claims" then cr_claims r
  else [].

(** The request [u] asks [endpoint], without a query of its own, exactly for [wants]. *)
Definition plain_endpoint (endpoint : string) : Prop := forall k, url_values k endpoint = [].
Definition asks_for (u : string) (wants : string -> list string) : Prop := forall k, url_values k u = wants k.

(** A successful response. *)
Definition success (r : http_reply) : Prop := exists s j b, r = HReply s j b /\ 200 <= s < 300.

(** ** Ordinary URLs, spelled out *)

(** Every byte of [s] is one of those of [set]. *)
Fixpoint only (set s : string) : Prop :=
  match s with EmptyString => True | String c r => (exists a b, set = a ++ String c b) /\ only set r end.
Definition alphabet : string := "abcdefghijklmnopqrstuvwxyzABCDEFGHIJKLMNOPQRSTUVWXYZ".
Definition decimals : string := "0123456789".

(** A URL [scheme://host], with or without user, port, path, query and fragment (RFC 3986,
    without escapes; [user] ends with "@", [port] starts with ":", [path] with "/", [query]
    with "?" and [fragment] with "#" if present). *)
Record ordinary_url (scheme user host port path query fragment : string) : Prop := {
  ou_scheme : exists c r, scheme = String c r /\ only alphabet (String c "") /\ only (alphabet ++ decimals ++ "+-.") r;
  ou_user : user = "" \/ exists u, user = u ++ "@" /\ only (alphabet ++ decimals ++ "-._~!$&'()*+,;=:") u;
  ou_host : host <> "" /\ only (alphabet ++ decimals ++ "-._~!$&'()*+,;=") host;
  ou_port : port = "" \/ exists p, port = ":" ++ p /\ only decimals p;
  ou_path : path = "" \/ exists p, path = "/" ++ p /\ only (alphabet ++ decimals ++ "-._~!$&'()*+,;=:@/") p;
  ou_query : query = "" \/ exists q, query = "?" ++ q /\ only (alphabet ++ decimals ++ "-._~!$&'()*+,;=:@/?") q;
  ou_fragment : fragment = "" \/ exists f, fragment = "#" ++ f /\ only (alphabet ++ decimals ++ "-._~!$&'()*+,;=:@/?") f }.
Definition url_of (scheme user host port path query fragment : string) : string :=
  scheme ++ "://" ++ user ++ host ++ port ++ path ++ query ++ fragment.

(** Bytes that separate the parts of a URL. *)
Definition separates (c : ascii) : Prop := c = "/"%char \/ c = "?"%char \/ c = "#"%char \/ c = "@"%char \/ c = " "%char \/ c = "\"%char.
