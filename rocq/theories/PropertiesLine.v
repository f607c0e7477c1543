(** Property theorems about collecting in federations in which no authority has two
    subordinate authorities (C76, C153). [reached] and [exec] range over all interleavings
    of the goroutines. *)
From Verif Require Import Base GoVal Policy Schema Metadata Chain Resolver FloatTime Json TrustMark WitnessResolver Discovery SpecDiscovery
  WitnessDiscovery SpecAsked SpecLine LineFacts WitnessLine WitnessTree RaceFacts WitnessRace.
Local Open Scope nat_scope.
Local Open Scope string_scope.
Local Open Scope list_scope.

(** ** C76 Entity collection is free of data races *)

(** No race if no authority has two subordinate authorities: intermediates may be stacked to
    any depth, may have any number of leaves and may list one of their superiors. Missing:
    federations in which an authority has two intermediates below it, see C76_refuted. *)
Theorem C76_line_partial : forall w authority ta s,
  one_authority w authority -> reached w ta s -> ~ races (snd s).
Proof. intros w authority ta s H. exact (line_no_race w authority H ta s). Qed.
Print Assumptions C76_line_partial.

(** Two authorities below the anchor are enough: whenever it lists two entities that are asked
    for their subordinates, and not more entities than can be looked at together, some
    schedule has a race. *)
Theorem C76_two_refuted : forall w ta l i j b c, dw_listing w [] ta = Some l -> List.length l < max_workers -> i <> j ->
  nth_error l i = Some b -> nth_error l j = Some c -> snd (dw_entity w [S i] b) = true -> snd (dw_entity w [S j] c) = true -> b <> ta ->
  exists s, reached w ta s /\ races (snd s).
Proof. exact two_race. Qed.
Print Assumptions C76_two_refuted.

Example C76_two_case : network 9 cenv1 rq0 world1 /\ dw_listing world1 [] TA = Some [I1; I2] /\ List.length [I1; I2] < max_workers /\
  snd (dw_entity world1 [1] I1) = true /\ snd (dw_entity world1 [2] I2) = true /\ I1 <> TA.
Proof. exact race_case. Qed.

(** ** C153 An authority is asked once for its subordinates *)

(** In such a federation no schedule asks anybody twice. *)
Theorem C153_line_partial : forall w authority ta cs s,
  one_authority w authority -> exec w cs (start ta) = Some s -> NoDup (asked_for_lists w cs (start ta)).
Proof. intros w authority ta cs s H. exact (line_asked_once w authority H ta cs s). Qed.
Print Assumptions C153_line_partial.

Example C76_line_case : network 9 cenv2 rq0 world2 /\ one_authority world2 authority2 /\
  (exists s, exec world2 schedule2 (start TA) = Some s /\ finished (snd s) = true) /\
  asked_for_lists world2 schedule2 (start TA) = [TA; I1; I2].
Proof. exact line_case. Qed.
