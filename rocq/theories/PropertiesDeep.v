(** Property theorems about collecting in federations in which an authority at any depth has two
    subordinate authorities (C76, C153). [reached] and [exec] range over all interleavings of
    the goroutines. *)
From Verif Require Import Base GoVal Policy Schema Metadata Chain Resolver FloatTime Json TrustMark WitnessResolver Discovery SpecDiscovery
  WitnessDiscovery SpecAsked SpecDeep DeepRaceFacts DeepDiamondFacts WitnessDiamond WitnessDeep WitnessDeepDiamond.
Local Open Scope nat_scope.
Local Open Scope string_scope.
Local Open Scope list_scope.

(** ** C76 Entity collection is free of data races *)

(** Two authorities below any authority on a way from the anchor are enough, the other side of
    C76_line_partial: if one of the two is not on that way, some schedule has a race. *)
Theorem C76_deep_refuted : forall w ta V p a l i j b c, way w ta V p a -> ~ In a V ->
  dw_listing w p a = Some l -> List.length l < max_workers -> i <> j ->
  nth_error l i = Some b -> nth_error l j = Some c -> snd (dw_entity w (S i :: p) b) = true -> snd (dw_entity w (S j :: p) c) = true ->
  ~ In b (a :: V) -> exists s, reached w ta s /\ races (snd s).
Proof. exact deep_race. Qed.
Print Assumptions C76_deep_refuted.

Example C76_deep_case : network 9 cenv4 rq0 world4 /\ way world4 TA [TA] [0; 2] I1 /\ ~ In I1 [TA] /\
  dw_listing world4 [0; 2] I1 = Some [I2; I3] /\ 2 < max_workers /\
  snd (dw_entity world4 [1; 0; 2] I2) = true /\ snd (dw_entity world4 [2; 0; 2] I3) = true /\ ~ In I2 [I1; TA].
Proof. exact deep_case. Qed.

(** ** C153 A collection asks every authority once *)

(** C153_two_refuted at any depth: if an authority on a way from the anchor lists two
    authorities that both list a third one, none of them on that way, some collection asks the
    third one twice. *)
Theorem C153_deep_refuted : forall w ta V p a b1 b2 c l l1 l2 i j k1 k2, names_entities w -> finite_world w -> way w ta V p a ->
  dw_listing w p a = Some l -> List.length l < max_workers -> i <> j ->
  nth_error l i = Some b1 -> nth_error l j = Some b2 ->
  snd (dw_entity w (S i :: p) b1) = true -> snd (dw_entity w (S j :: p) b2) = true ->
  dw_listing w (0 :: S i :: p) b1 = Some l1 -> List.length l1 < max_workers -> nth_error l1 k1 = Some c -> snd (dw_entity w (S k1 :: 0 :: S i :: p) c) = true ->
  dw_listing w (0 :: S j :: p) b2 = Some l2 -> List.length l2 < max_workers -> nth_error l2 k2 = Some c -> snd (dw_entity w (S k2 :: 0 :: S j :: p) c) = true ->
  ~ In a V -> ~ In b1 (a :: V) -> ~ In b2 (b1 :: a :: V) -> ~ In c (b2 :: b1 :: a :: V) ->
  exists cs s, exec w cs (start ta) = Some s /\ finished (snd s) = true /\ ~ NoDup (asked_for_lists w cs (start ta)).
Proof. exact deep_twice. Qed.
Print Assumptions C153_deep_refuted.

Example C153_deep_case : names_entities world5 /\ finite_world world5 /\ way world5 TA [TA] [0; 2] I1 /\
  dw_listing world5 [0; 2] I1 = Some [I2; I3] /\ dw_listing world5 [0; 1; 0; 2] I2 = Some [RP1; I4] /\ dw_listing world5 [0; 2; 0; 2] I3 = Some [I4] /\
  snd (dw_entity world5 [1; 0; 2] I2) = true /\ snd (dw_entity world5 [2; 0; 2] I3) = true /\
  snd (dw_entity world5 [2; 0; 1; 0; 2] I4) = true /\ snd (dw_entity world5 [1; 0; 2; 0; 2] I4) = true /\
  2 < max_workers /\ NoDup [I4; I3; I2; I1; TA].
Proof. exact deep_diamond_case. Qed.
