(** Property theorems about collecting in federations in which entities have two superiors
    (C61, C153, C166). [exec] ranges over all interleavings of the goroutines. *)
From Verif Require Import Base GoVal Policy Schema Metadata Chain Resolver FloatTime Json TrustMark WitnessResolver Discovery SpecDiscovery
  WitnessDiscovery SpecAsked SpecTree DiamondFacts CompletionFacts WitnessDiamond WitnessCompletion.
Local Open Scope nat_scope.
Local Open Scope string_scope.
Local Open Scope list_scope.

(** ** C61 Collection terminates *)

(** However the goroutines were scheduled so far, the collection can be brought to its end. *)
Theorem C61_completes : forall w ta, names_entities w -> finite_world w -> forall cs s, exec w cs (start ta) = Some s ->
  exists cs' s', exec w (cs ++ cs') (start ta) = Some s' /\ finished (snd s') = true.
Proof. exact completes. Qed.
Print Assumptions C61_completes.

Example C61_completes_case : names_entities world3 /\ finite_world world3.
Proof. exact finite3. Qed.

(** ** C153 A collection asks every authority once *)

(** Two superiors below the anchor are enough: whenever the anchor lists two authorities that
    both list a third one, and none of the three lists is longer than what can be looked at
    together, some collection asks the third one twice. *)
Theorem C153_two_refuted : forall w ta b1 b2 c l l1 l2 i j k1 k2, names_entities w -> finite_world w ->
  dw_listing w [] ta = Some l -> List.length l < max_workers -> i <> j ->
  nth_error l i = Some b1 -> nth_error l j = Some b2 ->
  snd (dw_entity w [S i] b1) = true -> snd (dw_entity w [S j] b2) = true ->
  dw_listing w [0; S i] b1 = Some l1 -> List.length l1 < max_workers -> nth_error l1 k1 = Some c -> snd (dw_entity w [S k1; 0; S i] c) = true ->
  dw_listing w [0; S j] b2 = Some l2 -> List.length l2 < max_workers -> nth_error l2 k2 = Some c -> snd (dw_entity w [S k2; 0; S j] c) = true ->
  NoDup [c; b2; b1; ta] ->
  exists cs s rest, exec w cs (start ta) = Some s /\ finished (snd s) = true /\
    asked_for_lists w cs (start ta) = [ta; b1; b2; c; c] ++ rest.
Proof. exact diamond_returns. Qed.
Print Assumptions C153_two_refuted.

Example C153_two_case : network 9 cenv3 rq0 world3 /\
  dw_listing world3 [] TA = Some [I1; I2] /\ dw_listing world3 [0; 1] I1 = Some [RP1; I3] /\ dw_listing world3 [0; 2] I2 = Some [I3] /\
  snd (dw_entity world3 [1] I1) = true /\ snd (dw_entity world3 [2] I2) = true /\
  snd (dw_entity world3 [2; 0; 1] I3) = true /\ snd (dw_entity world3 [1; 0; 2] I3) = true /\
  2 < max_workers /\ NoDup [I3; I2; I1; TA].
Proof. exact diamond_case. Qed.

(** ** C166 A collection looks at every entity once *)

(** No schedule helps: an entity that two authorities list is looked at twice or more in every
    collection, also if each authority is asked once. *)
Theorem C166_two_refuted : forall w L ta cs s a1 a2 l1 l2 b, names_entities w ->
  (forall p a, dw_listing w p a = L a) -> (forall a l, L a = Some l -> NoDup l) ->
  exec w cs (start ta) = Some s -> finished (snd s) = true -> a1 <> a2 ->
  a1 = ta \/ (below (lists_always w) (asked_always w) ta a1 /\ asked_always w a1) ->
  a2 = ta \/ (below (lists_always w) (asked_always w) ta a2 /\ asked_always w a2) ->
  L a1 = Some l1 -> In b l1 -> L a2 = Some l2 -> In b l2 ->
  2 <= count_occ string_dec (looked_at w cs (start ta)) b.
Proof. exact two_superiors. Qed.
Print Assumptions C166_two_refuted.

Example C166_two_case : (forall p a, dw_listing world3 p a = listing3 a) /\ (forall a l, listing3 a = Some l -> NoDup l) /\
  (exists s, exec world3 schedule3 (start TA) = Some s /\ finished (snd s) = true) /\
  below (lists_always world3) (asked_always world3) TA I1 /\ asked_always world3 I1 /\
  below (lists_always world3) (asked_always world3) TA I2 /\ asked_always world3 I2 /\
  listing3 I1 = Some [RP1; I3] /\ listing3 I2 = Some [I3] /\
  asked_for_lists world3 schedule3 (start TA) = [TA; I1; I3; I2] /\ looked_at world3 schedule3 (start TA) = [I1; RP1; I3; OP1; I2; I3].
Proof. exact two_case. Qed.
