(** Specification vocabulary for trust chain resolution: what a valid path from an entity
    to a trust anchor is, independently of how the resolver searches for it. *)
From Verif Require Import Base GoVal Policy Schema Metadata Chain Resolver.
Local Open Scope string_scope.

(** Within the iat/exp window at time [now]; an absent (zero) timestamp does not limit. *)
Definition valid_at (now : time) (s : stmt) : Prop :=
  (st_iat s = zero_time \/ (st_iat s <= now)%Z) /\ (st_exp s = zero_time \/ (now <= st_exp s)%Z).

(** The statement's JWT verifies under the (non-empty) key set. *)
Definition signed_by (w : world) (s : stmt) (ks : jwks) : Prop :=
  exists k l, ks = Some (k :: l) /\ w_verify w (st_jwt s) (k :: l) = true.

(** A naming constraint as in RFC 5280: a leading period matches every host below the
    domain, anything else exactly that host. *)
Definition name_matches (w : world) (c id : string) : Prop :=
  exists host, w_host w id = Some host /\
    ((exists rest, c = "." ++ rest /\ exists pre, host = pre ++ c) \/ ((forall rest, c <> "." ++ rest) /\ host = c)).

(** The constraints [c] are met by the entities [below] the issuer (their entity
    configurations, nearest first; the last one is the subject of the chain). *)
Record constraints_met (w : world) (c : constraints) (below : list stmt) : Prop := {
  cm_path : forall m, co_max_path c = Some m -> (Z.of_nat (List.length below) - 1 <= m)%Z;
  cm_excluded : forall n e x, co_naming c = Some n -> In e below -> In x (nc_excluded n) -> ~ name_matches w x (st_sub e);
  cm_permitted : forall n l e, co_naming c = Some n -> nc_permitted n = Some l -> In e below ->
      exists x, In x l /\ name_matches w x (st_sub e);
  cm_types : forall l e t, co_types c = Some l -> In e below -> In t (types_of e) -> In t l \/ t = "federation_entity" }.

(** One step up: the position of the authority hint that is followed, the authority's
    entity configuration, and its statement about the entity below. *)
Record hop := Hop { h_pos : nat; h_ec : stmt; h_sub : stmt }.

(** A path from the entity with configuration [e] (at node [p] of the tree, above the
    entities [below]) to a trust anchor: every hop is served by the network, linked by
    issuer and subject, within its validity period, loop free, and meets the constraints;
    the path stops at the first trust anchor. *)
Inductive path_up (w : world) (tas : list anchor) : list nat -> stmt -> list stmt -> list hop -> Prop :=
| pu_anchor p e below : In (st_iss e) (anchor_ids tas) -> path_up w tas p e below []
| pu_hop p e below i ec s hs :
    ~ In (st_iss e) (anchor_ids tas) ->
    nth_error (st_hints e) i = Some (st_iss ec) ->
    (forall x, In x (e :: below) -> st_sub x <> st_iss ec) ->
    w_config w (i :: p) (st_iss ec) = Some ec ->
    st_sub ec = st_iss ec ->
    valid_at (w_now w (i :: p) false) ec ->
    fetch_endpoint ec <> "" ->
    w_fetch w (i :: p) (fetch_endpoint ec) (st_iss e) (st_iss ec) = Some s ->
    st_iss s = st_iss ec ->
    st_sub s = st_iss e ->
    valid_at (w_now w (i :: p) true) s ->
    (forall c, st_constraints s = Some c -> constraints_met w c (e :: below)) ->
    path_up w tas (i :: p) ec (e :: below) hs ->
    path_up w tas p e below (Hop i ec s :: hs).

(** The keys of the trust anchor with configuration [e]: those configured for the first
    anchor of that name, or, if none are configured, those of its own configuration. *)
Definition trusted_keys (tas : list anchor) (e : stmt) (ks : jwks) : Prop :=
  exists pre ta post, tas = (pre ++ ta :: post)%list /\ ta_id ta = st_iss e /\
    (forall x, In x pre -> ta_id x <> st_iss e) /\
    ks = match ta_jwks ta with None => st_jwks e | Some l => Some l end.

(** All signatures along the path verify: everything an entity signs (its configuration
    [e], its statement [sub] about the entity below) under the keys its superior lists for
    it, and what the anchor signs under the anchor's keys. *)
Inductive signed_up (w : world) (tas : list anchor) : stmt -> option stmt -> list hop -> Prop :=
| su_anchor e s ks : trusted_keys tas e ks -> signed_by w e ks -> signed_by w s ks -> signed_up w tas e (Some s) []
| su_hop e sub i ec s hs :
    signed_by w e (st_jwks s) ->
    (forall s', sub = Some s' -> signed_by w s' (st_jwks s)) ->
    signed_up w tas ec (Some s) hs ->
    signed_up w tas e sub (Hop i ec s :: hs).

(** The configuration at the upper end of a path. *)
Fixpoint top (e : stmt) (hs : list hop) : stmt :=
  match hs with [] => e | h :: hs' => top (h_ec h) hs' end.

(** The trust chain along a path: the subject's configuration, the subordinate statements
    upwards, the anchor's configuration. *)
Definition chain_along (e : stmt) (hs : list hop) : chain := (e :: map h_sub hs ++ [top e hs])%list.

(** The configuration of the starting entity as the resolver uses it. *)
Definition start_config (w : world) (types : list string) (start : string) (e : stmt) : Prop :=
  start <> "" /\ exists s m, w_config w [] start = Some s /\ st_metadata s = Some m /\
    e = with_metadata s (Some (match types with [] => m | _ => nil_all_except m types end)).

(** [c] is among the chains returned by ResolveToValidChains, or by
    ResolveToValidChainsWithoutVerifyingMetadata, for [start]. *)
Definition returned (w : world) (tas : list anchor) (types : list string) (start : string) (c : chain) : Prop :=
  exists fuel cs, (resolve_chains fuel w tas types start = Done (Ok cs) \/
                   resolve_valid fuel w tas types start = Done (Ok cs)) /\ In c cs.

(** Signatures of a chain: every statement verifies under the keys listed in the next one;
    the anchor's configuration and the statement below it verify under the anchor's keys. *)
Inductive signed_chain (w : world) (tas : list anchor) : chain -> Prop :=
| sc_end s t ks : trusted_keys tas t ks -> signed_by w s ks -> signed_by w t ks -> signed_chain w tas [s; t]
| sc_up a b c : signed_by w a (st_jwks b) -> signed_chain w tas (b :: c) -> signed_chain w tas (a :: b :: c).

(** The last statement is the self-issued configuration of a configured anchor. *)
Definition ends_at_anchor (tas : list anchor) (c : chain) : Prop :=
  exists pre t, c = (pre ++ [t])%list /\ st_iss t = st_sub t /\ exists ta, In ta tas /\ ta_id ta = st_iss t.

(** Every statement's issuer is the subject of the next statement. *)
Definition linked (c : chain) : Prop :=
  forall pre a b post, c = (pre ++ a :: b :: post)%list -> st_iss a = st_sub b.

(** [s] is a subordinate statement of [c]: neither the first nor the last; [lower] are the
    statements below it. *)
Definition subordinate (c lower : chain) (s : stmt) : Prop :=
  exists upper, c = (lower ++ s :: upper)%list /\ lower <> [] /\ upper <> [].

(** All entity types of an entity, including those the library has no struct for. *)
Definition all_types_of (s : stmt) : list string :=
  match st_metadata s with Some m => (guess_entity_types m ++ keys (md_extra m))%list | None => [] end.

(** The network as seen by a resolver whose starting entity can only reach the authority
    in position [i] of its hints. *)
Definition only (i : nat) (w : world) : world :=
  World (fun p a => match p with
                    | [] => w_config w [] a
                    | _ => if Nat.eqb (last p 0) i then w_config w p a else None
                    end)
        (w_fetch w) (w_now w) (w_verify w) (w_host w).

(** The configuration served for the starting entity names it as issuer and subject
    consistently. *)
Definition self_named (w : world) (start : string) : Prop :=
  forall s, w_config w [] start = Some s -> st_iss s = st_sub s.
