(** Property theorems about error replies (C167). [read] parses a JSON text; [te_remote] is
    the answer of the endpoint. *)
From Verif Require Import Base GoVal Policy Schema Metadata Chain Resolver FloatTime Json Web TrustMark WitnessResolver WitnessTrustMark
  ErrorReply SpecErrorReply ErrorReplyFacts WitnessErrorReply.
Local Open Scope nat_scope.
Local Open Scope string_scope.

(** ** C167 Errors of the library keep their meaning on the way to a client *)

(** A resolve endpoint that answers with one of the errors: nobody takes it for metadata, and
    whether it says yes, no or neither is what the error means, whatever its description.
    Missing: errors that are not declared as JSON or sent with a status below 400
    (C167_undeclared_refuted). *)
Theorem C167_told_partial : forall fuel e p ep rq read r, te_remote e p ep rq = reply_answer read r ->
  forall status body k description, r = HReply status true body -> 400 <= status -> read body = Some (encode_error (make_error k description)) ->
  resolve_payload fuel e (SimpleR ep) p rq = Done Err /\ resolve_metadata fuel e (SimpleR ep) p rq = Done Err /\
  resolve_possible fuel e (SimpleR ep) p rq = Done (Ok (meaning k)).
Proof. exact error_told. Qed.
Print Assumptions C167_told_partial.

(** Code and description arrive as they were given, and no two errors have the same code. *)
Theorem C167_read_back : forall k description, decode_error (encode_error (make_error k description)) = ErrorObject (error_code k) description.
Proof. exact (fun k description => decode_encode (make_error k description)). Qed.
Print Assumptions C167_read_back.
Theorem C167_distinct : forall k k', error_code k = error_code k' -> k = k'.
Proof. exact error_code_inj. Qed.
Print Assumptions C167_distinct.

(** Exactly the replies that count as a yes: the error invalid_metadata, in whatever JSON
    object with a status from 400 on, and resolve responses, with whatever status. *)
Theorem C167_yes : forall fuel e p ep rq read r, te_remote e p ep rq = reply_answer read r ->
  (resolve_possible fuel e (SimpleR ep) p rq = Done (Ok (true, false)) <->
   error_reply read r "invalid_metadata" \/ exists body pl, other_reply read r body /\ parse_response e body = Ok pl).
Proof. exact possible_yes. Qed.
Print Assumptions C167_yes.

(** And as a no: the error invalid_trust_chain, no reply at all, and whatever is neither an
    error nor a resolve response. *)
Theorem C167_no : forall fuel e p ep rq read r, te_remote e p ep rq = reply_answer read r ->
  (resolve_possible fuel e (SimpleR ep) p rq = Done (Ok (false, true)) <->
   r = HFailed \/ error_reply read r "invalid_trust_chain" \/ exists body, other_reply read r body /\ forall pl, parse_response e body <> Ok pl).
Proof. exact possible_no. Qed.
Print Assumptions C167_no.

(** So an error that is not declared as JSON becomes a no. *)
Theorem C167_undeclared_refuted : exists read body d e ep rq, read body = Some (encode_error (make_error ServerError d)) /\
  te_remote e [] ep rq = reply_answer read (HReply 500 false body) /\
  resolve_possible 9 e (SimpleR ep) [] rq = Done (Ok (false, true)) /\ meaning ServerError = (false, false).
Proof. exact c167_undeclared. Qed.
Print Assumptions C167_undeclared_refuted.

Example C167_case : (forall k r, te_remote (env_error k r) [] RESOLVE (Req LEAF [TA] []) = reply_answer (read_error k) r) /\
  (forall k, read_error k "error" = Some (encode_error (make_error k "no path"))) /\
  resolve_possible 9 (env_error InvalidTrustChain (HReply 404 true "error")) (SimpleR RESOLVE) [] (Req LEAF [TA] []) = Done (Ok (false, true)) /\
  resolve_possible 9 (env_error InvalidMetadata (HReply 400 true "error")) (SimpleR RESOLVE) [] (Req LEAF [TA] []) = Done (Ok (true, false)) /\
  resolve_possible 9 (env_error ServerError (HReply 500 true "error")) (SimpleR RESOLVE) [] (Req LEAF [TA] []) = Done (Ok (false, false)) /\
  resolve_possible 9 (env_error ServerError (HReply 500 false "error")) (SimpleR RESOLVE) [] (Req LEAF [TA] []) = Done (Ok (false, true)) /\
  resolve_possible 9 (env_error ServerError (HReply 200 false "forged")) (SimpleR RESOLVE) [] (Req LEAF [TA] []) = Done (Ok (true, false)).
Proof. exact c167_case. Qed.
