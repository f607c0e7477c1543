(** Specification vocabulary: trust marks in a federation of entities that use this library. *)
From Coq Require Import QArith.
From Verif Require Import Base GoVal Policy Schema Metadata Chain Resolver SpecResolver Json SpecJson TrustMark SpecTrustMark Refresher Leaf Config Jwt Statement
  Encode SpecEncode Federation SpecFederation.
From Verif Require Import SpecEncode GoVal.
Local Open Scope nat_scope.
Local Open Scope string_scope.

(** The environment of a member that resolves by itself: the requests of call [p] for [rq] go to
    the network [net p rq]; there is one cryptography and one encoding of key sets. *)
Record member (e : env) (net : list nat -> request -> network) : Prop := Member {
  me_local : te_default e = LocalR;
  me_world : forall p rq, te_world e p rq = seen (net p rq);
  me_parse : forall p rq jwt, te_parse e jwt = read_jwt (nw_crypto (net p rq)) jwt;
  me_stmt : forall p rq jwt, te_stmt e jwt = ok_or_none (parse_statement (read_jwt (nw_crypto (net p rq))) (nw_codec (net p rq)) jwt);
  me_verify : forall p rq jwt ks, te_verify e jwt ks = verify_raw (net p rq) jwt ks }.

(** [sign] is the JWT method of the signer [s]. *)
Definition signs (n : network) (s : jwt_signer) (sign : string -> json -> option string) : Prop :=
  forall typ j jwt, sign typ j = Some jwt -> exists m, general_jwt (nw_crypto n) s (Ok j) typ = Ok m /\ cx_parse (nw_crypto n) jwt = Some m.

(** Made at [from] and not yet expired at [now], by more than the precision of time stamps. *)
Definition alive (now from : time) (until : option time) : Prop :=
  SpecTrustMark.in_range from /\ (from + 1500 <= now)%Z /\ forall u, until = Some u -> SpecTrustMark.in_range u /\ (now <= u - 1500)%Z.

(** The trust marks an owner can hold: those given on creation and those added later. *)
Inductive owner_specs : smap owned -> Prop :=
| os_new l : owner_specs (new_owner l)
| os_add s m : owner_specs m -> owner_specs (add_owned s m).

(** [t] is a mark of type [typ] about [sub], with the delegation [dj], that [y] issued and that is
    in force at [now]. *)
Definition issues (n : network) (y : participant) (typ sub dj : string) (now : time) (t : info) : Prop :=
  exists sign specs spec at_ lf, signs n (pa_signer y) sign /\ issuer_specs specs /\ lookup typ specs = Some spec /\
    no_clash mark_fields (ms_extra spec) /\ ms_deleg spec = dj /\ issue_mark sign (pa_id y) specs at_ typ sub lf = Ok t /\
    let life := match lf with Some l => l | None => ms_lifetime spec end in
    alive now at_ (if Z.eqb life 0 then None else Some (at_ + life)%Z).

(** The owner [o] with the keys [ks] made the delegation [dj] of type [typ] for [y]. *)
Definition consents (n : network) (o : string) (ks : jwks) (typ dj : string) (y : participant) (now : time) : Prop :=
  dj <> "" /\ exists s k l sign specs spec at_ lf, ks = Some (k :: l) /\ signer_jwks (nw_crypto n) s = Ok (nw_keys n (k :: l)) /\ signs n s sign /\
    owner_specs specs /\ lookup typ specs = Some spec /\ no_clash delegation_fields (ow_extra spec) /\
    delegate sign o specs at_ typ (pa_id y) lf = Ok dj /\
    alive now at_ (if Z.eqb (ow_lifetime spec) 0 then None else Some (at_ + match lf with Some l => l | None => ow_lifetime spec end)%Z).

(** The anchor [a] lets [y] issue marks of this type, and so does their owner, if they have one. *)
Definition may_issue (n : network) (a y : participant) (typ dj : string) (now : time) : Prop :=
  (forall l, lookup typ (pa_issuers a) = Some l -> In (pa_id y) l) /\
  (forall o ks, lookup typ (pa_owners a) = Some (o, ks) -> consents n o ks typ dj y now).

(** [y] is below the anchor [a]: a line of superiors vouches for it, their policies can be
    applied to its metadata, and resolution comes to an end. *)
Definition below_anchor (n : network) (a y : participant) : Prop :=
  exists c ss fuel cs, pa_id y <> "" /\ pa_id y <> pa_id a /\ sound_participant n y /\ publishes n [] y c /\ line n [Anchor (pa_id a) None] [] y [] ss /\
    (forall ch, Forall2 statement_read (documents c ss) ch -> exists m, chain_metadata ch = Ok m) /\
    resolve_valid fuel (seen n) [Anchor (pa_id a) None] [] (pa_id y) = Done (Ok cs).
(** It is the anchor itself, or below it. *)
Definition belongs (n : network) (a y : participant) : Prop := (y = a /\ sound_participant n a) \/ below_anchor n a y.

(** [s] is an entity configuration of [a], as read. *)
Definition configures (a : participant) (s : stmt) : Prop := exists t marks extra, statement_read (configuration a t marks extra) s.
