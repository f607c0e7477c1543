(** Specification vocabulary for the requests made when trust marks are verified with the
    smart resolver as the default. *)
From Verif Require Import Base GoVal Policy Schema Metadata Chain Resolver SpecResolver Requests SpecRequests FloatTime Json TrustMark SpecTrustMark MarkRequests SpecMarkRequests.
Local Open Scope string_scope.

(** A mark that [ta], the configuration of an anchor, does not exclude, of another entity. *)
Definition eligible (ta : stmt) (m : mark) : Prop :=
  mk_iss m <> st_sub ta /\ forall l, lookup (mk_type m) (st_mark_issuers ta) = Some l -> In (mk_iss m) l.

(** The local resolution of [rq] returns the chain [c], in some call. *)
Definition chain_to_any (e : env) (rq : request) (c : chain) : Prop :=
  exists p fuel pl, local_plain fuel e p rq = Done (Ok (pl, c)).

(** Finding out about [iss] below [ta] leads to finding out about [iss'] below [ta']: it is
    the same, or the local resolution of [iss] has found a chain, a mark in the configuration
    at its lower end is not excluded by the one at its upper end, and the issuer of this mark
    leads there. *)
Inductive leads_to (e : env) : stmt -> string -> stmt -> string -> Prop :=
| lt_here ta iss : leads_to e ta iss ta iss
| lt_mark ta iss leaf c t m ta' iss' :
    chain_to_any e (Req iss [st_sub ta] []) (leaf :: c) ->
    In t (infos_of leaf) -> is_mark e (ti_jwt t) m -> mk_type m = ti_type t -> eligible (last (leaf :: c) leaf) m ->
    leads_to e (last (leaf :: c) leaf) (mk_iss m) ta' iss' ->
    leads_to e ta iss ta' iss'.

(** As [on_behalf_of], with the smart resolver: the anchor may be asked for its configuration
    and the resolve endpoint stated there about [iss]. *)
Definition smartly_for (e : env) (ta iss : string) (c : contact) : Prop :=
  match c with
  | Within p rq r => rq = Req iss [ta] [] /\ called_for (te_world e p rq) [Anchor ta None] [] iss r
  | ToResolver p ep rq => rq = Req iss [ta] [] /\ exists ec, te_config e p ta = Some ec /\ resolve_endpoint ec = ep
  | ToEntity p id => id = iss \/ id = ta
  end.
