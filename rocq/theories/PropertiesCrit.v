(** Property theorem about the crit claim of entity statements (C39, see also
    PropertiesResolver.v). *)
From Verif Require Import Base GoVal Policy Schema Metadata Chain Resolver SpecResolver SpecCrit CritFacts WitnessResolver.
Local Open Scope string_scope.

(** ** C39 Statements with not-understood critical claims are rejected *)

(** Refuted for all networks: whatever crit claims the documents carry, the same chains are
    returned. *)
Theorem C39_never_examined : forall f fuel w tas types start,
  resolve_chains fuel (set_crits f w) tas types start = same_but_crit f (resolve_chains fuel w tas types start) /\
  resolve_valid fuel (set_crits f w) tas types start = same_but_crit f (resolve_valid fuel w tas types start).
Proof. exact (fun f fuel w tas types start => conj (resolve_chains_crit f fuel w tas types start) (resolve_valid_crit f fuel w tas types start)). Qed.
Print Assumptions C39_never_examined.

Example C39_case : returned (set_crits (fun _ => ["future_claim"]) net0) tas0 [] LEAF
  (map (set_crit (fun _ => ["future_claim"])) (chain0 leaf0 None None [])).
Proof. exists 5. eexists. split; [right; vm_compute; reflexivity|vm_compute; auto]. Qed.
