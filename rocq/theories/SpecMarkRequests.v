(** Specification vocabulary for the requests made when trust marks are verified and metadata
    is resolved. *)
From Verif Require Import Base GoVal Policy Schema Metadata Chain Resolver SpecResolver Requests SpecRequests FloatTime Json TrustMark MarkRequests.
Local Open Scope string_scope.

(** In [e'] the request is answered as in [e]. *)
Definition answered_same (e e' : env) (c : contact) : Prop :=
  match c with
  | ToEntity p id => te_config e' p id = te_config e p id
  | ToResolver p ep rq => te_remote e' p ep rq = te_remote e p ep rq
  | Within p rq r => answered_alike (te_world e p rq) (te_world e' p rq) r
  end.

(** The environments differ at most in what servers answer. *)
Record differ_in_answers (e e' : env) : Prop := {
  da_default : te_default e' = te_default e;
  da_world : forall p rq, same_but_served (te_world e p rq) (te_world e' p rq);
  da_now : forall p b, te_now e' p b = te_now e p b;
  da_parse : forall j, te_parse e' j = te_parse e j;
  da_stmt : forall j, te_stmt e' j = te_stmt e j;
  da_payload : forall j, te_payload e' j = te_payload e j;
  da_verify : forall m ks, te_verify e' m ks = te_verify e m ks;
  da_swaps : forall cs, te_swaps e' cs = te_swaps e cs }.

(** The request is made in the course of finding out about [iss] below the anchor [ta]: the
    resolution of [iss] calls for it, or it asks a resolver or [iss] itself for nothing
    else. *)
Definition on_behalf_of (e : env) (ta iss : string) (c : contact) : Prop :=
  match c with
  | Within p rq r => rq = Req iss [ta] [] /\ called_for (te_world e p rq) [Anchor ta None] [] iss r
  | ToResolver p ep rq => rq = Req iss [ta] [] /\ te_default e = SimpleR ep
  | ToEntity p id => id = iss
  end.
