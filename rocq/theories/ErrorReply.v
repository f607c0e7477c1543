(** Error replies: error.go and what a client of a resolve endpoint makes of them. *)
From Verif Require Import Base GoVal Policy Schema Metadata Chain Resolver FloatTime Json Web TrustMark.
Local Open Scope nat_scope.
Local Open Scope string_scope.

(** The errors there are constructors for, with their codes: error.go:10-22 *)
Inductive error_kind :=
| InvalidRequest | InvalidClient | InvalidIssuer | InvalidSubject | InvalidTrustAnchor | InvalidTrustChain | InvalidMetadata
| NotFound | ServerError | TemporarilyUnavailable | UnsupportedParameter.
Definition error_code (k : error_kind) : string :=
  match k with
  | InvalidRequest => "invalid_request"
  | InvalidClient => "invalid_client"
  | InvalidIssuer => "invalid_issuer"
  | InvalidSubject => "invalid_subject"
  | InvalidTrustAnchor => "invalid_trust_anchor"
  | InvalidTrustChain => "invalid_trust_chain"
  | InvalidMetadata => "invalid_metadata"
  | NotFound => "not_found"
  | ServerError => "server_error"
  | TemporarilyUnavailable => "temporarily_unavailable"
  | UnsupportedParameter => "unsupported_parameter"
  end.

(** Error: error.go:4-7; ErrorInvalidRequest, ..., ErrorTemporarilyUnavailable: error.go:24-110 *)
Record error_object := ErrorObject { eo_error : string; eo_description : string }.
Definition make_error (k : error_kind) (description : string) : error_object := ErrorObject (error_code k) description.
(** json.Marshal of an Error: error.go:4-7 *)
Definition encode_error (o : error_object) : json :=
  JObj [("error", JStr (eo_error o)); ("error_description", JStr (eo_description o))].

(** The decoded fields of HttpError: internal/http/http.go:24-28. Status has no tag, so that a
    member of this name is decoded, too; it is overwritten. *)
Definition http_error_tags : list string := ["error"; "error_description"; "Status"].
(** json.Unmarshal of one member. A value of another type makes Unmarshal fail, but only at
    the end; resty then logs the failure and leaves the object as it is. null is a no-op.
    Used at internal/http/http.go:48. *)
Definition take_member (o : error_object) (m : string * json) : error_object :=
  match field_of http_error_tags (fst m), snd m with
  | Some 0, JStr s => ErrorObject s (eo_description o)
  | Some 1, JStr s => ErrorObject (eo_error o) s
  | _, _ => o
  end.
Definition decode_error (j : json) : error_object :=
  match j with JObj ms => fold_left take_member ms (ErrorObject "" "") | _ => ErrorObject "" "" end.

(** http.Get as a resolver uses it (internal/http/http.go:46-56, metadata_resolver.go:118-135).
    [read] parses a JSON text. resty decodes the body into the error for a status from 400 on
    if it is declared as JSON (see Web.v). *)
Definition error_of (read : string -> option json) (body : string) : string :=
  match read body with Some j => eo_error (decode_error j) | None => "" end.
Definition reply_answer (read : string -> option json) (r : http_reply) : answer :=
  match r with
  | HFailed => ATransport
  | HReply status is_json body =>
      if (Nat.leb 400 status && is_json && negb (String.eqb (error_of read body) ""))%bool then AError (error_of read body) else ABody body
  end.
