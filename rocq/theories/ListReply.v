(** Replies of list endpoints: which HTTP replies are the cases of ListCache.v. *)
From Verif Require Import Base GoVal Policy Schema Metadata Chain Resolver FloatTime Json Web TrustMark Refresher Cache ListCache ErrorReply.
Local Open Scope nat_scope.
Local Open Scope string_scope.

(** json.Unmarshal of a document into a list of strings: discovery.go:581 *)
Definition decode_list (j : json) : res (option (list string)) :=
  match j with
  | JNull => Ok None
  | JArr l => ids <- dec_strs l ;; Ok (Some ids)
  | _ => Err
  end.

(** http.Get with a list of strings as the result object (internal/http/http.go:46-56,
    discovery.go:580-587). resty decodes a body declared as JSON into the result for a status
    from 200 to 299, except 204, where a failure makes the call fail, and into the error for
    a status from 400 on, where it does not. *)
Definition listing_reply (read : string -> option json) (r : http_reply) : list_reply :=
  match r with
  | HFailed => RFailed
  | HReply status is_json body =>
      if negb is_json || Nat.eqb status 204 then ROther
      else if Nat.leb 200 status && Nat.ltb status 300 then
        match read body with
        | None => RFailed
        | Some j => match decode_list j with Ok ids => RListing ids | _ => RFailed end
        end
      else if Nat.leb 400 status && negb (String.eqb (error_of read body) "") then RErrorObject
      else ROther
  end.
