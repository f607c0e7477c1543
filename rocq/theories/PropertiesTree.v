(** How often a collection looks at an entity, and collecting in federations in which nobody
    has two superiors. See SpecTree.v and SpecAsked.v for the vocabulary. *)
From Coq Require Import Permutation.
From Verif Require Import Base GoVal Policy Schema Metadata Chain Resolver FloatTime Json TrustMark WitnessResolver Discovery SpecDiscovery
  WitnessDiscovery SpecAsked WitnessAsked SpecTree TreeFacts WitnessTree.
Local Open Scope nat_scope.
Local Open Scope string_scope.

(** ** C153 A collection asks every authority once *)

(** Under any schedule, if nobody has two superiors. Missing: entities with several superiors
    (C153_twice_refuted). *)
Theorem C153_tree_partial : forall w ta cs s, one_superior w ta -> exec w cs (start ta) = Some s ->
  NoDup (asked_for_lists w cs (start ta)).
Proof. exact tree_asked_once. Qed.
Print Assumptions C153_tree_partial.

(** Under any schedule, if listings name nobody twice and do not change: the anchor is asked
    once and every authority once for each request to a superior of it, at most (the anchor,
    too, if someone lists it). *)
Theorem C153_bounded_partial : forall w L ta cs s b,
  (forall p a, dw_listing w p a = L a) -> (forall a l, L a = Some l -> NoDup l) ->
  exec w cs (start ta) = Some s ->
  count_occ string_dec (asked_for_lists w cs (start ta)) b <=
  (if String.eqb b ta then 1 else 0) +
  List.length (filter (fun a => match L a with Some l => mem b l | None => false end) (asked_for_lists w cs (start ta))).
Proof. exact asked_bounded. Qed.
Print Assumptions C153_bounded_partial.

(** ** C166 A collection looks at every entity once *)

(** Under any schedule: only entities below the anchor are looked at. *)
Theorem C166_only : forall w ta cs s b, names_entities w -> exec w cs (start ta) = Some s ->
  In b (looked_at w cs (start ta)) -> below (lists_once w) (asked_once w) ta b.
Proof. exact looked_only. Qed.
Print Assumptions C166_only.

(** Under any schedule: when the collection returns, all of them have been looked at. *)
Theorem C166_every : forall w ta cs s b, names_entities w -> exec w cs (start ta) = Some s -> finished (snd s) = true ->
  below (lists_always w) (asked_always w) ta b -> In b (looked_at w cs (start ta)).
Proof. exact looked_every. Qed.
Print Assumptions C166_every.

(** Under any schedule: each is looked at as often as it was listed. *)
Theorem C166_as_listed : forall w ta cs s, exec w cs (start ta) = Some s -> finished (snd s) = true ->
  Permutation (looked_at w cs (start ta)) (listed_in w cs (start ta)).
Proof. exact looked_exact. Qed.
Print Assumptions C166_as_listed.

(** If listings name nobody twice and do not change: once for every request to a superior of
    it, of which there is one each if the set of visited entities is accessed in one step
    (C153_once_partial). *)
Theorem C166_superiors : forall w L ta cs s b,
  (forall p a, dw_listing w p a = L a) -> (forall a l, L a = Some l -> NoDup l) ->
  exec w cs (start ta) = Some s -> finished (snd s) = true ->
  count_occ string_dec (looked_at w cs (start ta)) b =
  List.length (filter (fun a => match L a with Some l => mem b l | None => false end) (asked_for_lists w cs (start ta))).
Proof. exact looked_superiors. Qed.
Print Assumptions C166_superiors.

Example C166_superiors_case : (forall p a, dw_listing world0 p a = listing0 a) /\ (forall a l, listing0 a = Some l -> NoDup l) /\
  count_occ string_dec (looked_at world0 schedule0 (start TA)) I2 = 2 /\
  filter (fun a => match listing0 a with Some l => mem I2 l | None => false end) (asked_for_lists world0 schedule0 (start TA)) = [TA; I1].
Proof. exact superiors_case. Qed.

(** Hence once if nobody has two superiors. Missing: entities with several superiors
    (C166_twice_refuted). *)
Theorem C166_tree_partial : forall w ta cs s, one_superior w ta -> exec w cs (start ta) = Some s ->
  NoDup (looked_at w cs (start ta)).
Proof. exact tree_looked_once. Qed.
Print Assumptions C166_tree_partial.

(** Also for C153_bounded_partial: in the late schedule of C153_twice_refuted I2 is asked twice,
    once on behalf of each of its superiors. *)
Example C153_bounded_case : asked_for_lists world0 schedule_late (start TA) = [TA; I1; I2; I2] /\
  filter (fun a => match listing0 a with Some l => mem I2 l | None => false end) [TA; I1; I2; I2] = [TA; I1].
Proof. exact bounded_case. Qed.

Example C153_tree_case : network 9 cenv1 rq0 world1 /\ one_superior world1 (cr_anchor rq0) /\
  (exists s, exec world1 schedule1 (start TA) = Some s /\ finished (snd s) = true) /\
  ~ undisturbed world1 schedule1 (start TA) /\
  asked_for_lists world1 schedule1 (start TA) = [TA; I1; I2] /\ looked_at world1 schedule1 (start TA) = [I1; I2; OP1; RP1].
Proof. exact tree_case. Qed.

Example C166_case : names_entities world0 /\
  (exists s, exec world0 schedule0 (start TA) = Some s /\ finished (snd s) = true) /\
  looked_at world0 schedule0 (start TA) = [I1; OP1; I2; I1; RP1; OP1; I2] /\
  below (lists_always world0) (asked_always world0) TA RP1.
Proof. exact looked_case. Qed.

(** Even if the two accesses to the set of visited entities stay together. *)
Theorem C166_twice_refuted : exists fuel ce rq w cs s, network fuel ce rq w /\ exec w cs (start (cr_anchor rq)) = Some s /\
  finished (snd s) = true /\ undisturbed w cs (start (cr_anchor rq)) /\ ~ NoDup (looked_at w cs (start (cr_anchor rq))).
Proof. exact looked_twice. Qed.
Print Assumptions C166_twice_refuted.
