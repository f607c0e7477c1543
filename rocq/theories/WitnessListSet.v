(** A chain whose policies repeat elements. *)
From Verif Require Import Base GoVal Policy Schema Metadata Chain SpecPolicy SpecMetadata SpecChain SpecResolver Resolver SpecExact
  SpecListSet WitnessPolicy.
Local Open Scope nat_scope.
Local Open Scope string_scope.

Definition e_rep1 : entry := [("add", jarr ["ops"; "noc"; "ops"])].
Definition e_rep2 : entry := [("add", jarr ["noc"; "abuse"; "abuse"]); ("superset_of", jarr ["abuse"; "abuse"])].
Definition s_rep1 : sentry := SEntry None (Some ["ops"; "noc"; "ops"]) None None None None None.
Definition s_rep2 : sentry := SEntry None (Some ["noc"; "abuse"; "abuse"]) None None None (Some ["abuse"; "abuse"]) None.
Definition chain_rep : chain :=
  [leaf_st; with_policy (bare "ia" "rp") [("contacts", e_rep1)] []; with_policy (bare "ta" "ia") [("contacts", e_rep2)] []; bare "ta" "ta"].

Lemma chain_rep_case : exists md em', chain_metadata chain_rep = Ok (Some md) /\ md_rp md = Some em' /\
  Forall2 (any_list_entry "contacts") (policies_of mp_rp chain_rep) [Some s_rep1; Some s_rep2] /\
  table_result (all_merged [Some s_rep1; Some s_rep2]) (Some ["admin@rp.example"]) =
    Ok (Some ["admin@rp.example"; "ops"; "noc"; "ops"; "abuse"; "abuse"]) /\
  em_tag "contacts" em' = Some (VSlice TStr false (map VStr ["admin@rp.example"; "ops"; "noc"; "abuse"])).
Proof.
  do 2 eexists. split; [vm_compute; reflexivity|]. split; [reflexivity|].
  split; [|split; reflexivity].
  change (policies_of mp_rp chain_rep) with [Some [("contacts", e_rep1)]; Some [("contacts", e_rep2)]].
  constructor; [|constructor; [|constructor]]; (split; [nodup|]); simpl; split.
  - constructor; try reflexivity; [nodup|known_keys|]; simpl; op_str.
  - intros k v [-> | ->] E; discriminate.
  - constructor; try reflexivity; [nodup|known_keys| |]; simpl; op_str.
  - intros k v [-> | ->] E; discriminate.
Qed.
