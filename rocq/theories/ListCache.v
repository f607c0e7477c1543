(** Subordinate listings and their cache: discovery.go:566-593,704-725. *)
From Verif Require Import Base GoVal Policy Schema Metadata Chain Resolver TrustMark Refresher FloatTime Cache.
Local Open Scope nat_scope.
Local Open Scope string_scope.

(** What comes back from a GET of the list endpoint (internal/http/http.go:46-56 with
    github.com/go-resty/resty/v2, which is not in /repo; modelled from its source: a JSON
    body is decoded into the result for status 2xx and into the error for 4xx and 5xx; any
    other body is left alone):
    the transport failed or a JSON body with status 2xx could not be decoded; *)
Inductive list_reply :=
| RFailed
(** a status from 400 on, with a JSON object with a non-empty error; *)
| RErrorObject
(** status 2xx with a JSON array of strings, or null; *)
| RListing (ids : option (list string))
(** anything else: a status from 400 on with an HTML page, an empty body or JSON that is no
    such object (resty only logs that), a status 2xx that
    is not declared as JSON, a status 3xx that is not followed. *)
| ROther.

(** httpFetchList: discovery.go:580-593. The result object is the empty slice unless a body
    was decoded into it. [Ok None] is the nil slice. *)
Definition http_fetch_list (r : list_reply) : res (option (list string)) :=
  match r with
  | RFailed | RErrorObject => Err
  | RListing ids => Ok ids
  | ROther => Ok (Some [])
  end.

(** defaultSubordinateListingCacheTime: discovery.go:28 *)
Definition listing_ttl : Z := 3600000000000%Z.

(** Listings are stored under the keys of this cache, everything else is opaque.
    Used at discovery.go:704-725. *)
Inductive lcached := LIds (ids : option (list string)) | LElse.

(** discovery.go:706,715 *)
Definition list_key (endpoint : string) : string := cache_key key_subordinate_listing endpoint.

(** subordinateListingCacheGet: discovery.go:713-725. nil when there is nothing. *)
Definition list_cache_get (now : time) (endpoint : string) (k : cache lcached) : option (list string) * cache lcached :=
  match cache_get now (list_key endpoint) k with
  | (Some (LIds ids), k') => (ids, k')
  | (_, k') => (None, k')
  end.

(** subordinateListingCacheSet: discovery.go:704-711 *)
Definition list_cache_set (now : time) (endpoint : string) (ids : option (list string)) (k : cache lcached) : cache lcached :=
  cache_set now (list_key endpoint) (LIds ids) listing_ttl k.

(** fetchList: discovery.go:566-578; [t0] and [t1] are the clock at the two uses of the
    cache. A nil slice and an empty one are the same to the caller. *)
Definition fetch_list (t0 t1 : time) (endpoint : string) (reply : list_reply) (k : cache lcached)
  : res (list string) * cache lcached :=
  match list_cache_get t0 endpoint k with
  | (Some ids, k') => (Ok ids, k')
  | (None, k') =>
      match http_fetch_list reply with
      | Ok ids => (Ok (match ids with Some l => l | None => [] end), list_cache_set t1 endpoint ids k')
      | Err => (Err, k')
      | Panic => (Panic, k')
      end
  end.
