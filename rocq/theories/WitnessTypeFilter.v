(** Witnesses for what a type filter changes about resolution. *)
From Verif Require Import Base GoVal Policy Schema Metadata Chain Resolver SpecResolver SpecLookup WitnessResolver.
Local Open Scope string_scope.

(** An entity that is a provider and a relying party. *)
Definition md_two : option metadata :=
  Some (Metadata (Some (zero_meta op_schema)) (Some (zero_meta rp_schema)) None None None None []).
Definition leaf_two : stmt := mk "kl" LEAF LEAF ["kl"] [IM] md_two None [] 1000%Z.
Definition leaf_rp : stmt := mk "kl" LEAF LEAF ["kl"] [IM] md_rp_only None [] 1000%Z.
Definition only_rp : option constraints := Some (Constraints None None (Some ["openid_relying_party"])).

Lemma filter_refuted : exists w tas types start c,
  types <> [] /\ resolve_valid 5 w tas types start = Done (Ok [c]) /\ 3 <= List.length c /\
  resolve_valid 5 w tas [] start = Done (Ok []).
Proof.
  exists (net LEAF leaf_two None only_rp []), tas0, ["openid_relying_party"], LEAF, (chain0 leaf_rp None only_rp []).
  split; [discriminate |]. split; [vm_compute; reflexivity |]. split; [cbn; lia | vm_compute; reflexivity].
Qed.

Lemma filter_case :
  let w := net LEAF leaf_two None None [] in
  resolve_valid 5 w tas0 [] LEAF = Done (Ok [chain0 leaf_two None None []]) /\
  resolve_valid 5 w tas0 ["openid_relying_party"] LEAF = Done (Ok [chain0 leaf_rp None None []]) /\
  resolve_chains 5 w tas0 [] LEAF = Done (Ok [chain0 leaf_two None None []]) /\
  resolve_chains 5 w tas0 ["openid_relying_party"] LEAF = Done (Ok [chain0 leaf_rp None None []]) /\
  w_config w [] LEAF = Some leaf_two /\
  (exists m, chain_metadata (chain0 leaf_two None None []) = Ok (Some m) /\
     shown_at m "openid_provider" <> None /\ shown_at m "openid_relying_party" <> None).
Proof.
  cbv zeta. do 5 (split; [vm_compute; reflexivity |]). eexists. split; [vm_compute; reflexivity |]. split; discriminate.
Qed.
