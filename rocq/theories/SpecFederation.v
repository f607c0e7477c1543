(** Specification vocabulary: a federation of entities that use this library. *)
From Coq Require Import QArith.
From Verif Require Import Base GoVal Policy Schema Metadata SpecMetadata Chain Resolver SpecResolver SpecChain Json TrustMark Refresher Leaf Config Jwt Statement Encode SpecEncode Federation.
From Verif Require Import GoVal.
Local Open Scope nat_scope.
Local Open Scope string_scope.

(** An entity: what it passes to NewFederationEntity, its signer, and the trust mark issuers and
    owners it sets. *)
Record participant := Participant {
  pa_id : string; pa_signer : jwt_signer; pa_keys : list string; pa_hints : list string; pa_metadata : metadata; pa_lifetime : Z;
  pa_issuers : smap (list string); pa_owners : smap (string * jwks) }.

(** Its own key is the one it publishes, and everything it passes is as it should be. *)
Record sound_participant (n : network) (x : participant) : Prop := SoundParticipant {
  so_keys : signer_jwks (nw_crypto n) (pa_signer x) = Ok (nw_keys n (pa_keys x));
  so_some : pa_keys x <> [];
  so_codec : keys_ok (nw_codec n) (Some (pa_keys x));
  so_metadata : metadata_ok (pa_metadata x);
  so_lifetime : (0 < pa_lifetime x <= 9223372036)%Z;
  so_issuers : NoDup (keys (pa_issuers x));
  so_owners : NoDup (keys (pa_owners x)) /\ Forall (fun o => keys_ok (nw_codec n) (snd (snd o))) (pa_owners x) }.

(** The entity configuration it publishes at time [t], with the trust marks it has obtained. *)
Definition configuration (x : participant) (t : time) (marks : list (string * res string)) (extra : smap json) : statement_payload :=
  config_statement (with_marks (new_entity (pa_id x) (pa_hints x) (Some (pa_metadata x)) (Some (pa_keys x)) (pa_lifetime x)) (pa_issuers x) (pa_owners x)) t marks extra.

(** [jwt] was made by [s] from [p]. *)
Definition issued (n : network) (s : jwt_signer) (p : statement_payload) (jwt : string) : Prop :=
  exists m, sign_statement (nw_crypto n) (nw_codec n) s p = Ok m /\ cx_parse (nw_crypto n) jwt = Some m.

(** Issued before [now] and not yet expired, by more than the precision of time stamps. *)
Definition in_force (now from until : time) : Prop := (from + 1500 <= now <= until - 1500)%Z.

(** At node [p] of the resolution, the configuration [d] of [x] is obtained. *)
Definition publishes (n : network) (p : list nat) (x : participant) (d : statement_payload) : Prop :=
  exists t marks extra jwt, d = configuration x t marks extra /\ apart claim_names extra /\
    in_range t /\ in_range (t + pa_lifetime x * 1000000000)%Z /\
    nw_config n p (pa_id x) = Some jwt /\ issued n (pa_signer x) d jwt.
Definition current (n : network) (p : list nat) (b : bool) (d : statement_payload) : Prop :=
  in_force (nw_now n p b) (st_iat (sp_claims d)) (st_exp (sp_claims d)).

(** The fetch endpoint in the metadata of an entity. *)
Definition fetch_address (m : metadata) (ep : string) : Prop :=
  exists fe, md_fe m = Some fe /\ em_tag "federation_fetch_endpoint" fe = Some (VStr ep) /\ ep <> "".

(** At node [p], the statement [d] of [y] about [x] is obtained from the fetch endpoint of [y]. *)
Definition vouches (n : network) (p : list nat) (y x : participant) (d : statement_payload) : Prop :=
  exists ep jwt, fetch_address (pa_metadata y) ep /\ nw_fetch n p ep (pa_id x) (pa_id y) = Some jwt /\ issued n (pa_signer y) d jwt /\
    payload_ok (nw_codec n) d /\ st_iss (sp_claims d) = pa_id y /\ st_sub (sp_claims d) = pa_id x /\ st_jwks (sp_claims d) = Some (pa_keys x).

(** The constraints [c] of a superior allow the entities [below] it, nearest first. *)
Record allows (n : network) (c : constraints) (below : list participant) : Prop := Allows {
  al_path : forall m, co_max_path c = Some m -> (Z.of_nat (List.length below) - 1 <= m)%Z;
  al_excluded : forall nc z x, co_naming c = Some nc -> In z below -> In x (nc_excluded nc) -> ~ name_matches (seen n) x (pa_id z);
  al_permitted : forall nc l z, co_naming c = Some nc -> nc_permitted nc = Some l -> In z below -> exists x, In x l /\ name_matches (seen n) x (pa_id z);
  al_types : forall l z t, co_types c = Some l -> In z below -> In t (guess_entity_types (pa_metadata z)) -> In t l \/ t = "federation_entity" }.

(** [x] is a trust anchor: the first one with its name is configured with its keys or with none. *)
Definition trusts (tas : list anchor) (x : participant) : Prop :=
  exists pre ta post, tas = (pre ++ ta :: post)%list /\ ta_id ta = pa_id x /\ (forall a, In a pre -> ta_id a <> pa_id x) /\
    (ta_jwks ta = None \/ ta_jwks ta = Some (pa_keys x)).

(** One step up: the position of the hint that names the superior, the superior, its
    configuration and its statement about the entity below. *)
Record step := Step { sp_pos : nat; sp_superior : participant; sp_configuration : statement_payload; sp_about : statement_payload }.

(** A line of superiors from [x] (at node [p], above the entities [below]) up to the first trust
    anchor. *)
Inductive line (n : network) (tas : list anchor) : list nat -> participant -> list participant -> list step -> Prop :=
| line_anchor p x below : trusts tas x -> line n tas p x below []
| line_up p x below i y c d ss :
    ~ In (pa_id x) (anchor_ids tas) ->
    nth_error (pa_hints x) i = Some (pa_id y) ->
    (forall z, In z (x :: below) -> pa_id z <> pa_id y) ->
    sound_participant n y -> publishes n (i :: p) y c -> current n (i :: p) false c ->
    vouches n (i :: p) y x d -> current n (i :: p) true d ->
    given (fun k => allows n k (x :: below)) (st_constraints (sp_claims d)) ->
    line n tas (i :: p) y (x :: below) ss ->
    line n tas p x below (Step i y c d :: ss).

(** The documents of a line, from the configuration [c] of the entity at its lower end to that of
    the anchor. *)
Fixpoint top_configuration (c : statement_payload) (ss : list step) : statement_payload :=
  match ss with [] => c | s :: ss' => top_configuration (sp_configuration s) ss' end.
Definition documents (c : statement_payload) (ss : list step) : list statement_payload :=
  (c :: map sp_about ss ++ [top_configuration c ss])%list.

(** The policies for one entity type in these documents, as they are read. *)
Definition policies_in (sel : policies -> gpolicy) (ds : list statement_payload) : list gpolicy :=
  flat_map (fun d => match st_policy (sp_claims d) with Some q => [policy_read (sel q)] | None => [] end) ds.

(** No superior has a policy. *)
Definition plain_line (ss : list step) : Prop := forall s, In s ss -> st_policy (sp_claims (sp_about s)) = None /\ st_policy_crit (sp_claims (sp_about s)) = [].
