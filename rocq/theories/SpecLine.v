(** Specification vocabulary: federations in which no authority has two subordinate
    authorities. *)
From Verif Require Import Base GoVal Policy Schema Metadata Chain Resolver FloatTime Json TrustMark Discovery SpecDiscovery.
Local Open Scope string_scope.

(** The entities marked by [authority] include all that are ever asked for their subordinates,
    and no listing names two of them. *)
Definition one_authority (w : dworld) (authority : string -> bool) : Prop :=
  (forall b, asked_once w b -> authority b = true) /\
  (forall p a l, dw_listing w p a = Some l -> List.length (filter authority l) <= 1).
