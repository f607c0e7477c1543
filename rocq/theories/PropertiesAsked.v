(** Which authorities a collection asks for their subordinates. See SpecAsked.v for the
    vocabulary. *)
From Verif Require Import Base GoVal Policy Schema Metadata Chain Resolver FloatTime Json TrustMark WitnessResolver Discovery SpecDiscovery
  WitnessDiscovery SpecAsked AskedFacts WitnessAsked.
Local Open Scope nat_scope.
Local Open Scope string_scope.

(** ** C153 A collection asks every authority once *)

(** Under any schedule: only the anchor and the authorities below it are asked. *)
Theorem C153_only : forall w ta cs s a, names_entities w ->
  exec w cs (start ta) = Some s -> In a (asked_for_lists w cs (start ta)) ->
  a = ta \/ (below (lists_once w) (asked_once w) ta a /\ asked_once w a).
Proof. exact asked_only. Qed.
Print Assumptions C153_only.

(** Under any schedule: when the collection returns, all of them have been asked. *)
Theorem C153_every : forall w ta cs s a, names_entities w ->
  exec w cs (start ta) = Some s -> finished (snd s) = true ->
  a = ta \/ (below (lists_always w) (asked_always w) ta a /\ asked_always w a) ->
  In a (asked_for_lists w cs (start ta)).
Proof. exact asked_every. Qed.
Print Assumptions C153_every.

(** None is asked twice if looking whether an entity was visited and noting that it is were
    one step. Missing: all other schedules (C153_twice_refuted). *)
Theorem C153_once_partial : forall w ta cs s,
  exec w cs (start ta) = Some s -> undisturbed w cs (start ta) -> NoDup (asked_for_lists w cs (start ta)).
Proof. exact asked_once_each. Qed.
Print Assumptions C153_once_partial.

Example C153_case : names_entities world0 /\ undisturbed world0 schedule0 (start TA) /\
  (exists s, exec world0 schedule0 (start TA) = Some s /\ finished (snd s) = true) /\
  asked_for_lists world0 schedule0 (start TA) = [TA; I1; I2].
Proof. exact asked_case. Qed.

Theorem C153_twice_refuted : exists fuel ce rq w cs s, network fuel ce rq w /\ exec w cs (start (cr_anchor rq)) = Some s /\
  finished (snd s) = true /\ ~ NoDup (asked_for_lists w cs (start (cr_anchor rq))).
Proof. exact asked_twice. Qed.
Print Assumptions C153_twice_refuted.
