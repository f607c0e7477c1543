(** Specification vocabulary for the authenticity of trust marks. *)
From Verif Require Import Base GoVal Policy Schema Metadata Chain Resolver SpecResolver SpecAuth FloatTime Json TrustMark SpecTrustMark.
Local Open Scope nat_scope.
Local Open Scope string_scope.

(** What is assumed when marks are checked in call [p] against the anchor with configuration
    [ta]: signatures cannot be forged, the anchor's keys and those of the trust mark owners it
    names are theirs, and the issuers of the statements in chains to the anchor list only keys
    of the subjects. *)
Record marks_ideal (e : env) (p : list nat) (ta : stmt) (dec : string -> option stmt)
       (owns signed : string -> string -> Prop) : Prop := {
  mi_network : forall iss, ideal (te_world e p (issuer_request iss ta)) dec owns signed;
  mi_unforgeable : forall id jwt ks, (forall k, In k ks -> owns id k) -> te_verify e jwt ks = true -> signed id jwt;
  mi_anchor : forall iss, anchor_known (te_world e p (issuer_request iss ta)) owns (Anchor (st_sub ta) None);
  mi_anchor_keys : forall l k, st_jwks ta = Some l -> In k l -> owns (st_sub ta) k;
  mi_owners : forall typ o l k, lookup typ (st_mark_owners ta) = Some (o, Some l) -> In k l -> owns o k;
  mi_careful : forall iss s r x, chain_to (te_world e p (issuer_request iss ta)) [st_sub ta] iss [] (s :: r) ->
    r <> [] -> In x (s :: r) -> careful dec owns signed (st_iss x) }.

(** The configuration served for the issuer of the mark names that entity as issuer and
    subject. *)
Definition names_issuer (e : env) (p : list nat) (t : info) (ta : stmt) : Prop :=
  forall m s, is_mark e (ti_jwt t) m -> w_config (te_world e p (issuer_request (mk_iss m) ta)) [] (mk_iss m) = Some s ->
    st_iss s = mk_iss m /\ st_sub s = mk_iss m.
(** It has superiors. *)
Definition has_superiors (e : env) (p : list nat) (t : info) (ta : stmt) : Prop :=
  forall m s, is_mark e (ti_jwt t) m -> w_config (te_world e p (issuer_request (mk_iss m) ta)) [] (mk_iss m) = Some s ->
    st_hints s <> [].
