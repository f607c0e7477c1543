(** C89 and C104, continued: exactly which HTTP replies are taken for listings and documents.
    [read] parses a JSON text. *)
From Verif Require Import Base GoVal Policy Schema Metadata Chain Resolver FloatTime Json Web TrustMark Refresher Cache ListCache ErrorReply SpecErrorReply
  ListReply SpecListReply ListReplyFacts WitnessListReply DocumentReplyFacts.
Local Open Scope nat_scope.
Local Open Scope string_scope.

(** ** C89 A failing list endpoint is not an empty listing *)

(** Subordinates come from a JSON array in a successful reply ... *)
Theorem C89_some : forall read r l, http_fetch_list (listing_reply read r) = Ok (Some l) -> l <> [] ->
  exists j, successful_json read r (Some j) /\ array_of j l.
Proof. exact fetched_some. Qed.
Print Assumptions C89_some.

(** ... and in general what is taken for the listing [l] is such an array, null, or a reply
    that says nothing: in the last two cases [l] is empty. *)
Theorem C89_exact : forall read r l,
  (exists ids, http_fetch_list (listing_reply read r) = Ok ids /\ match ids with Some l' => l' | None => [] end = l) <->
  (exists j, successful_json read r (Some j) /\ array_of j l) \/ (l = [] /\ (successful_json read r (Some JNull) \/ says_nothing read r)).
Proof. exact fetched_exact. Qed.
Print Assumptions C89_exact.

(** It fails exactly if there is no reply, an error with a code, or a successful reply with
    JSON of another kind. *)
Theorem C89_fails : forall read r, http_fetch_list (listing_reply read r) = Err <->
  r = HFailed \/ (exists code, error_reply read r code) \/ successful_json read r None \/
  exists j, successful_json read r (Some j) /\ j <> JNull /\ forall l, ~ array_of j l.
Proof. exact fetched_error. Qed.
Print Assumptions C89_fails.

Example C89_reply_case :
  http_fetch_list (listing_reply read_listing (HReply 200 true "list")) = Ok (Some ["https://rp.example"; "https://op.example"]) /\
  http_fetch_list (listing_reply read_listing (HReply 404 true "error")) = Err /\
  http_fetch_list (listing_reply read_listing (HReply 200 true "error")) = Err /\
  http_fetch_list (listing_reply read_listing (HReply 200 true "<html>")) = Err /\
  http_fetch_list (listing_reply read_listing (HReply 502 false "<html>")) = Ok (Some []) /\
  http_fetch_list (listing_reply read_listing (HReply 200 false "list")) = Ok (Some []).
Proof. exact reply_case. Qed.

(** ** C104 Documents are only taken from successful responses *)

(** A document is taken from every reply that is not an error reply with a code, and from no
    other. *)
Theorem C104_from_partial : forall (D : Type) read (parse : string -> res D) r d,
  http_document (error_of read) parse r = Ok d <-> exists body, other_reply read r body /\ parse body = Ok d.
Proof. exact document_from. Qed.
Print Assumptions C104_from_partial.

Example C104_from_case :
  http_document (error_of read_listing) (fun b => Ok b) (HReply 404 true "error") = (Err : res string) /\
  http_document (error_of read_listing) (fun b => Ok b) (HReply 200 false "jwt") = Ok "jwt" /\
  http_document (error_of read_listing) (fun b => Ok b) (HReply 404 false "jwt") = Ok "jwt".
Proof. exact document_case. Qed.
