(** Specification vocabulary for resolving with several trust anchors. *)
From Verif Require Import Base GoVal Policy Schema Metadata Chain Resolver SpecResolver.
Local Open Scope string_scope.

(** The keys configured for the entity [id], if it is one of the anchors (the first entry
    counts; [Some None]: an anchor without configured keys). *)
Definition pinned (tas : list anchor) (id : string) : option jwks :=
  option_map ta_jwks (find (fun ta => String.eqb (ta_id ta) id) tas).

(** The chain leads to the entity [id]. *)
Definition leads_to (id : string) (c : chain) : Prop := exists l s, c = (l ++ [s])%list /\ st_iss s = id.

(** The entities of a chain below its last one: those the statements between the first and
    the last are about. *)
Definition below_top (c : chain) : list string := map st_sub (removelast (tl c)).

(** The entities of the chain below its last one are no anchors. *)
Definition clear_of (tas : list anchor) (c : chain) : Prop :=
  forall x, In x (below_top c) -> ~ In x (anchor_ids tas).
