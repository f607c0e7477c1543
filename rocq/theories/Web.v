(** Where requests go: the URLs of entity configurations, the hosts naming constraints are
    compared with, the queries of the requests, and which replies are used
    (trustresolver.go:423-433,573-608, metadata_resolver.go:110-138, discovery.go:729-747,
    trustmark_refresher.go:133-147, internal/http/http.go:46-56). *)
From Verif Require Import Base GoVal Policy Schema Metadata Chain Resolver TrustMark Json Leaf.
Local Open Scope nat_scope.
Local Open Scope string_scope.

(** ** url.Parse and Hostname of net/url (Go 1.24; not part of /repo).
    Used at trustresolver.go:423-433. *)

Definition between (a b : nat) (c : ascii) : bool := Nat.leb a (nat_of_ascii c) && Nat.leb (nat_of_ascii c) b.
Definition letter (c : ascii) : bool := between 65 90 c || between 97 122 c.
Definition digit (c : ascii) : bool := between 48 57 c.
Fixpoint mem_byte (c : ascii) (s : string) : bool :=
  match s with EmptyString => false | String d r => Ascii.eqb c d || mem_byte c r end.
Fixpoint all_bytes (p : ascii -> bool) (s : string) : bool :=
  match s with EmptyString => true | String c r => p c && all_bytes p r end.

(** stringContainsCTLByte. Used at trustresolver.go:423-433. *)
Definition no_control (s : string) : bool := all_bytes (fun c => Nat.leb 32 (nat_of_ascii c) && negb (Nat.eqb (nat_of_ascii c) 127)) s.

(** getScheme: no scheme, an error, or the rest after the colon.
    Used at trustresolver.go:423-433. *)
Inductive scheme := SNone | SBad | SFound (rest : string).
Fixpoint get_scheme (first : bool) (s : string) : scheme :=
  match s with
  | EmptyString => SNone
  | String c r =>
      if letter c then get_scheme false r
      else if digit c || mem_byte c "+-." then if first then SNone else get_scheme false r
      else if Ascii.eqb c ":" then if first then SBad else SFound r
      else SNone
  end.

(** The text before and after the last occurrence of a byte, if it occurs.
    Used at trustresolver.go:423-433. *)
Fixpoint cut_last (c : ascii) (s : string) : option (string * string) :=
  match s with
  | EmptyString => None
  | String d r => match cut_last c r with
                  | Some (a, b) => Some (String d a, b)
                  | None => if Ascii.eqb c d then Some (EmptyString, r) else None
                  end
  end.

Definition hex (c : ascii) : option nat :=
  if digit c then Some (nat_of_ascii c - 48)
  else if between 97 102 c then Some (nat_of_ascii c - 87)
  else if between 65 70 c then Some (nat_of_ascii c - 55)
  else None.
Definition is_hex (c : ascii) : bool := match hex c with Some _ => true | None => false end.

(** unescape succeeds for paths, fragments and user infos: each % is followed by two
    hexadecimal digits. Used at trustresolver.go:423-433. *)
Fixpoint escapes_ok (s : string) : bool :=
  match s with
  | EmptyString => true
  | String c r => if Ascii.eqb c "%" then match r with
                                          | String a (String b r') => is_hex a && is_hex b && escapes_ok r'
                                          | _ => false
                                          end
                  else escapes_ok r
  end.

(** Bytes that may stand for themselves in a host: shouldEscape for hosts.
    Used at trustresolver.go:423-433. *)
Definition host_byte (c : ascii) : bool :=
  Nat.leb 128 (nat_of_ascii c) || letter c || digit c || mem_byte c "!$&'()*+,;=:[]<>""-_.~".
(** unescape for hosts: only % itself and bytes from 128 on may be escaped.
    Used at trustresolver.go:423-433. *)
Fixpoint unescape_host (s : string) : option string :=
  match s with
  | EmptyString => Some EmptyString
  | String c r =>
      if Ascii.eqb c "%" then
        match r with
        | String a (String b r') =>
            match hex a, hex b with
            | Some x, Some y =>
                if Nat.leb 8 x || (Nat.eqb x 2 && Nat.eqb y 5) then
                  option_map (String (ascii_of_nat (16 * x + y))) (unescape_host r')
                else None
            | _, _ => None
            end
        | _ => None
        end
      else if host_byte c then option_map (String c) (unescape_host r) else None
  end.

(** validOptionalPort, of the text from the colon on. Used at trustresolver.go:423-433. *)
Definition optional_port (s : string) : bool :=
  match s with
  | EmptyString => true
  | String c r => Ascii.eqb c ":" && all_bytes digit r
  end.

(** parseHost. Simplification: escapes within brackets (zones of IPv6 addresses) are errors.
    Used at trustresolver.go:423-433. *)
Definition parse_host (s : string) : option string :=
  match s with
  | String "[" _ =>
      match cut_last "]" s with
      | None => None
      | Some (a, port) => if optional_port port && negb (mem_byte "%" a) then unescape_host s else None
      end
  | _ =>
      match cut_last ":" s with
      | None => unescape_host s
      | Some (_, port) => if all_bytes digit port then unescape_host s else None
      end
  end.

(** validUserinfo. Used at trustresolver.go:423-433. *)
Definition user_byte (c : ascii) : bool := letter c || digit c || mem_byte c "-._:~!$&'()*+,;=%@".

(** parseAuthority, only the host. Used at trustresolver.go:423-433. *)
Definition parse_authority (s : string) : option string :=
  match cut_last "@" s with
  | None => parse_host s
  | Some (user, host) =>
      match parse_host host with
      | None => None
      | Some h => if all_bytes user_byte user && escapes_ok user then Some h else None
      end
  end.

(** The text before the first slash, and from there on. Used at trustresolver.go:423-433. *)
Fixpoint to_slash (s : string) : string * string :=
  match s with
  | EmptyString => (EmptyString, EmptyString)
  | String c r => if Ascii.eqb c "/" then (EmptyString, s) else let '(a, b) := to_slash r in (String c a, b)
  end.

(** parse and Parse, only URL.Host; None is an error. [opaque] or rootless URLs and those
    without authority have the host "". Used at trustresolver.go:423-433. *)
Definition parse_rest (has_scheme : bool) (rest : string) : option string :=
  let rest := fst (cut "?" rest) in
  if negb (has_prefix "/" rest) && has_scheme then Some ""
  else if negb (has_prefix "/" rest) && mem_byte ":" (fst (to_slash rest)) then None
  else
    let auth := has_prefix "//" rest && (has_scheme || negb (has_prefix "///" rest)) in
    match rest with
    | String _ (String _ r) =>
        if auth then
          let '(authority, path) := to_slash r in
          match parse_authority authority with
          | None => None
          | Some h => if escapes_ok path then Some h else None
          end
        else if escapes_ok rest then Some "" else None
    | _ => if escapes_ok rest then Some "" else None
    end.
Definition url_host (s : string) : option string :=
  let '(u, frag) := cut "#" s in
  if negb (no_control u) then None
  else
    match (match get_scheme true u with
           | SBad => None
           | SFound rest => parse_rest true rest
           | SNone => parse_rest false u
           end) with
    | None => None
    | Some h => if escapes_ok frag then Some h else None
    end.

(** Hostname: without port and without brackets. Used at trustresolver.go:423-433. *)
Definition strip_brackets (s : string) : string :=
  match s with
  | String "[" r => match cut_last "]" r with
                    | Some (a, "") => a
                    | _ => s
                    end
  | _ => s
  end.
Definition strip_port (h : string) : string :=
  strip_brackets (match cut_last ":" h with
                  | Some (a, port) => if all_bytes digit port then a else h
                  | None => h
                  end).
(** url.Parse(id) and u.Hostname(): trustresolver.go:424-428 *)
Definition hostname (id : string) : option string := option_map strip_port (url_host id).

(** ** Requests *)

(** strings.TrimSuffix(s, "/"). Used at trustresolver.go:572-586. *)
Fixpoint trim_slash (s : string) : string :=
  match s with
  | EmptyString => EmptyString
  | String "/" EmptyString => EmptyString
  | String c r => String c (trim_slash r)
  end.
(** FederationSuffix: oidfedconst/constants.go:4; the URL in httpGetEntityConfiguration:
    trustresolver.go:573-577 *)
Definition federation_suffix : string := "/.well-known/openid-federation".
Definition config_url (id : string) : string := trim_slash id ++ federation_suffix.

(** How resty (github.com/go-resty/resty/v2, not part of /repo) adds query parameters to a
    URL: internal/http/http.go:47. [canon] as in Leaf.v. *)
Definition request_url (canon : string -> option string) (endpoint : string) (params : values) : option string :=
  match url_parse canon endpoint with
  | None => None
  | Some u =>
      let q := encode params in
      Some (url_string (match params with
                        | [] => u
                        | _ => PUrl (pu_base u) (if String.eqb (pu_query u) "" then q else pu_query u ++ "&" ++ q) (pu_frag u)
                        end))
  end.

(** Values.Add of a list; nothing is added for an empty one. Used at discovery.go:734-760. *)
Definition vadd_all (k : string) (l : list string) (m : values) : values :=
  match l with [] => m | _ => insert k (Some l) m end.
(** httpFetchEntityStatement: trustresolver.go:598-599 *)
Definition fetch_params (sub : string) : values := [("sub", Some [sub])].
(** refresh: trustmark_refresher.go:133-135 *)
Definition mark_params (typ sub : string) : values := [("trust_mark_type", Some [typ]); ("sub", Some [sub])].
(** query.Values (github.com/google/go-querystring, not part of /repo) of a ResolveRequest:
    apimodel/resolve.go:4-8, metadata_resolver.go:114. *)
Record resolve_request := ResolveRequest { rq_sub : string; rq_anchors : list string; rq_types : list string }.
Definition resolve_params (r : resolve_request) : values :=
  vadd_all "entity_type" (rq_types r) (vadd_all "trust_anchor" (rq_anchors r) [("sub", Some [rq_sub r])]).
(** and of an EntityCollectionRequest: apimodel/collection.go:4-12, discovery.go:736. The
    field NameQuery has no url tag; query.Values then uses the name of the field. [limit] is
    the number in decimal. *)
Record collection_request := CollectionRequest {
  cr_from : string; cr_limit : string; cr_mark_types : list string; cr_anchor : string;
  cr_types : list string; cr_name : string; cr_claims : list string }.
Definition collection_params (r : collection_request) : values :=
  vadd_all "claims" (cr_claims r) (vadd_all "entity_type" (cr_types r) (vadd_all "trust_mark_type" (cr_mark_types r)
    [("NameQuery", Some [cr_name r]); ("trust_anchor", Some [cr_anchor r]); ("limit", Some [cr_limit r]);
     ("from_entity_id", Some [cr_from r])])).

(** ** Replies *)

(** The reply to a GET request: the transport failed, or the status code, whether the body is
    declared as JSON, and the body. Used at internal/http/http.go:46-69. *)
Inductive http_reply := HFailed | HReply (status : nat) (is_json : bool) (body : string).

(** http.Get without a result object: internal/http/http.go:46-56. [err_of body] is the
    error member the body has as a JSON object ("" if it has none or cannot be decoded);
    resty decodes it for a status from 400 on if the body is declared as JSON. *)
Definition http_get (err_of : string -> string) (r : http_reply) : res string :=
  match r with
  | HFailed => Err
  | HReply status is_json body =>
      if Nat.leb 400 status && is_json && negb (String.eqb (err_of body) "") then Err else Ok body
  end.

(** httpGetEntityConfiguration, httpFetchEntityStatement (trustresolver.go:573-608) and the
    trust mark request (trustmark_refresher.go:136-147): the reply's body is parsed. [parse]
    is ParseEntityStatement or ParseTrustMark. *)
Definition http_document {D} (err_of : string -> string) (parse : string -> res D) (r : http_reply) : res D :=
  body <- http_get err_of r ;; parse body.
