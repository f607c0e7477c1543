(** Vocabulary for list attributes whose policy operands may repeat elements. *)
From Verif Require Import Base GoVal Policy Metadata SpecPolicy SpecExact.

(** The policy [p] has the entry [s] for the list attribute [k] ([None]: it has none), with
    arrays as operands of value and default. *)
Definition any_list_entry (k : string) (p : gpolicy) (s : option sentry) : Prop :=
  NoDup (keys (pol p)) /\
  match lookup k (pol p), s with
  | Some e, Some x => denotes e x /\ list_operands e
  | None, None => True
  | _, _ => False
  end.
