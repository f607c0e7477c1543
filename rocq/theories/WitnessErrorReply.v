(** Error replies of a resolve endpoint. *)
From Verif Require Import Base GoVal Policy Schema Metadata Chain Resolver FloatTime Json Web TrustMark WitnessResolver WitnessTrustMark ErrorReply SpecErrorReply ErrorReplyFacts.
Local Open Scope nat_scope.
Local Open Scope string_scope.

Definition read_error (k : error_kind) (body : string) : option json :=
  if String.eqb body "error" then Some (encode_error (make_error k "no path")) else None.
Definition env_error (k : error_kind) (r : http_reply) : env := env_res (reply_answer (read_error k) r).
Definition RESOLVE := "https://ta.example/resolve".

Lemma c167_case : (forall k r, te_remote (env_error k r) [] RESOLVE (Req LEAF [TA] []) = reply_answer (read_error k) r) /\
  (forall k, read_error k "error" = Some (encode_error (make_error k "no path"))) /\
  resolve_possible 9 (env_error InvalidTrustChain (HReply 404 true "error")) (SimpleR RESOLVE) [] (Req LEAF [TA] []) = Done (Ok (false, true)) /\
  resolve_possible 9 (env_error InvalidMetadata (HReply 400 true "error")) (SimpleR RESOLVE) [] (Req LEAF [TA] []) = Done (Ok (true, false)) /\
  resolve_possible 9 (env_error ServerError (HReply 500 true "error")) (SimpleR RESOLVE) [] (Req LEAF [TA] []) = Done (Ok (false, false)) /\
  resolve_possible 9 (env_error ServerError (HReply 500 false "error")) (SimpleR RESOLVE) [] (Req LEAF [TA] []) = Done (Ok (false, true)) /\
  resolve_possible 9 (env_error ServerError (HReply 200 false "forged")) (SimpleR RESOLVE) [] (Req LEAF [TA] []) = Done (Ok (true, false)).
Proof. repeat split; vm_compute; reflexivity. Qed.

(** A server error that is not declared as JSON. *)
Lemma c167_undeclared : exists read body d e ep rq, read body = Some (encode_error (make_error ServerError d)) /\
  te_remote e [] ep rq = reply_answer read (HReply 500 false body) /\
  resolve_possible 9 e (SimpleR ep) [] rq = Done (Ok (false, true)) /\ meaning ServerError = (false, false).
Proof.
  exists (read_error ServerError), "error", "no path", (env_error ServerError (HReply 500 false "error")), RESOLVE, (Req LEAF [TA] []).
  repeat split; vm_compute; reflexivity.
Qed.
