(** Replies of a list endpoint. *)
From Verif Require Import Base GoVal Policy Schema Metadata Chain Resolver FloatTime Json Web TrustMark Refresher Cache ListCache ErrorReply ListReply.
Local Open Scope nat_scope.
Local Open Scope string_scope.

Definition read_listing (body : string) : option json :=
  if String.eqb body "list" then Some (JArr [JStr "https://rp.example"; JStr "https://op.example"])
  else if String.eqb body "error" then Some (encode_error (make_error NotFound "")) else None.
Lemma reply_case :
  http_fetch_list (listing_reply read_listing (HReply 200 true "list")) = Ok (Some ["https://rp.example"; "https://op.example"]) /\
  http_fetch_list (listing_reply read_listing (HReply 404 true "error")) = Err /\
  http_fetch_list (listing_reply read_listing (HReply 200 true "error")) = Err /\
  http_fetch_list (listing_reply read_listing (HReply 200 true "<html>")) = Err /\
  http_fetch_list (listing_reply read_listing (HReply 502 false "<html>")) = Ok (Some []) /\
  http_fetch_list (listing_reply read_listing (HReply 200 false "list")) = Ok (Some []).
Proof. repeat split; reflexivity. Qed.
