(** Specification vocabulary: logins with the providers of a federation. *)
From Coq Require Import QArith.
From Verif Require Import Base GoVal Policy Schema Metadata SpecMetadata Chain Resolver SpecResolver Json TrustMark SpecTrustMark Refresher Leaf Config Jwt Statement
  Encode SpecEncode Federation SpecFederation.
From Verif Require Import SpecEncode GoVal.
Local Open Scope nat_scope.
Local Open Scope string_scope.

Definition provider : list string := ["openid_provider"].

(** The requests that call [p] of the leaf [f], about the entity [y], causes go to the network [n];
    the leaf resolves by itself. *)
Definition asks (e : env) (p : list nat) (f : leaf) (y : participant) (n : network) : Prop :=
  te_default e = LocalR /\ te_world e p (Req (pa_id y) (anchor_ids (lf_anchors f)) provider) = seen n.

(** The provider metadata of [y] has the text [v] for the attribute [a]. *)
Definition op_says (y : participant) (a v : string) : Prop :=
  exists o, md_op (pa_metadata y) = Some o /\ em_tag a o = Some (VStr v).

(** A valid chain from [y] as a provider to an anchor of the leaf [f]. *)
Definition provider_chain (n : network) (f : leaf) (y : participant) (ch : chain) : Prop :=
  chain_to (seen n) (anchor_ids (lf_anchors f)) (pa_id y) provider ch.

(** No statement of the chain has a provider policy for the attribute [a]. *)
Definition unruled (ch : chain) (a : string) : Prop :=
  forall s q, In s ch -> st_policy s = Some q -> ~ In a (keys (pol (mp_op q))).

(** [y], and a configuration of it, with the metadata for providers only. *)
Definition as_provider (y : participant) : participant :=
  Participant (pa_id y) (pa_signer y) (pa_keys y) (pa_hints y)
    (Metadata (md_op (pa_metadata y)) None None None None None (filter (fun kv => String.eqb (fst kv) "openid_provider") (md_extra (pa_metadata y))))
    (pa_lifetime y) (pa_issuers y) (pa_owners y).

(** A line of superiors vouches for the provider [y], their policies can be applied to its provider
    metadata, and resolution comes to an end. *)
Definition vouched_provider (n : network) (f : leaf) (y : participant) : Prop :=
  exists t marks extra ss fuel cs, pa_id y <> "" /\ sound_participant n y /\
    publishes n [] y (configuration y t marks extra) /\ ss <> [] /\
    line n (map (fun id => Anchor id None) (anchor_ids (lf_anchors f))) [] (as_provider y) [] ss /\
    (forall ch, Forall2 statement_read (documents (configuration (as_provider y) t marks extra) ss) ch -> exists m, chain_metadata ch = Ok m) /\
    resolve_valid fuel (seen n) (map (fun id => Anchor id None) (anchor_ids (lf_anchors f))) provider (pa_id y) = Done (Ok cs).
