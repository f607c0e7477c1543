(** Specification of filters of trust chains. *)
From Verif Require Import Base Chain SpecChain.

(** The filter judges each chain on its own, whatever the other chains are. *)
Definition alone (f : chains -> chains) : Prop := exists P, forall cs, exactly P (f cs) cs.

(** [c] has [P], and no chain of [cs] that has [P] has fewer intermediates. *)
Definition shortest_with (P : chain -> Prop) (cs : chains) (c : chain) : Prop :=
  P c /\ forall d, In d cs -> P d -> intermediates c <= intermediates d.
