(** Specification vocabulary for the end of the verification of trust marks when a remote
    resolver is the default. *)
From Verif Require Import Base GoVal Policy Schema Metadata Chain Resolver SpecResolver FloatTime SpecTime Json SpecJson TrustMark SpecTrustMark SpecMarkDefault.
Local Open Scope string_scope.

(** The statement from which the keys of an entity are taken after an answer of a resolver:
    the first of its chain, or, if it has no chain, the configuration the entity serves. *)
Definition told_statement (e : env) (p : list nat) (iss : string) (pl : payload) (s : stmt) : Prop :=
  match pl_chain pl with j :: _ => te_stmt e j = Some s | [] => te_config e p iss = Some s end.

(** The mark is of the stated type and its issuer may issue it. *)
Definition may_count (e : env) (t : info) (ta : stmt) (m : mark) : Prop :=
  is_mark e (ti_jwt t) m /\ mk_type m = ti_type t /\
  forall l, lookup (mk_type m) (st_mark_issuers ta) = Some l -> In (mk_iss m) l.

(** Every statement that can be decoded or is served has a key set. *)
Definition all_have_keys (e : env) : Prop :=
  (forall j s, te_stmt e j = Some s -> st_jwks s <> None) /\ (forall p id s, te_config e p id = Some s -> st_jwks s <> None).

(** All superiors are among [U]. *)
Definition superiors_among (U : list string) (e : env) : Prop :=
  forall q iss ta q' a ec, w_config (te_world e q (issuer_request iss ta)) q' a = Some ec -> incl (st_hints ec) U.

(** No resolution of an issuer crashes (see C30). *)
Definition resolves_calmly (e : env) : Prop :=
  forall q iss ta f, resolve_valid f (te_world e q (issuer_request iss ta)) [Anchor (st_sub ta) None] [] iss <> Done Panic.

(** The marks that an entity bears are issued by entities of lower rank, so that nobody
    bears, directly or through others, a mark of its own. *)
Definition marks_descend (rank : string -> nat) (e : env) : Prop :=
  forall q iss ta s tj m, w_config (te_world e q (issuer_request iss ta)) [] iss = Some s ->
    In tj (st_marks s) -> is_mark e (snd tj) m -> rank (mk_iss m) < rank iss.
