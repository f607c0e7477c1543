(** Vocabulary: the authorities below the anchor on a way without repetitions. *)
From Verif Require Import Base GoVal Policy Schema Metadata Chain Resolver FloatTime Json TrustMark Discovery SpecDiscovery.
Local Open Scope nat_scope.
Local Open Scope list_scope.

(** [a] is the anchor, or is listed by such an authority in a list that is not longer than what
    can be looked at together, and is asked for its own subordinates. [V]: the authorities on
    the way from the anchor, the last one first; [p]: the requests of the call that asks [a]. *)
Inductive way (w : dworld) (ta : string) : list string -> list nat -> string -> Prop :=
| way_anchor : way w ta [] [] ta
| way_sub V p a l k b : way w ta V p a -> ~ In a V -> dw_listing w p a = Some l -> List.length l < max_workers ->
    nth_error l k = Some b -> snd (dw_entity w (S k :: p) b) = true -> way w ta (a :: V) (0 :: S k :: p) b.
