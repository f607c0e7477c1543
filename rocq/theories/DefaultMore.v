(** More on defaults that the same policy entry forbids: what happens to them, and entries that become such by merging. *)
From Verif Require Import Base BaseFacts GoVal Policy SpecPolicy PolicyFacts DefaultChecks SpecDefault DefaultFacts WitnessDefault.
Local Open Scope string_scope.
Local Open Scope list_scope.

Lemma text_fails e s d : denotes e s -> lookup "default" e = Some (VStr d) -> d <> "" -> offers_default s [d] ->
  se_subset_of s = None -> se_superset_of s = None -> ~ fitting_text s d -> apply_to e (VStr "") false = Err.
Proof.
  intros D Ed Nd [_ Ov Oa] O2 O3 N.
  pose proof (dn_value e s D) as Ev. rewrite Ov in Ev. pose proof (dn_add e s D) as Ea. rewrite Oa in Ea. pose proof (dn_one_of e s D) as Eo. cbn [operand_is] in *.
  pose proof (dn_subset_of e s D) as Eb. rewrite O2 in Eb. pose proof (dn_superset_of e s D) as Ep. rewrite O3 in Ep. cbn [operand_is] in *.
  unfold apply_to, operator_order, fitting_text in *. cbn [apply_ops]. unfold get. cbn [op_name]. rewrite Ev, Ea, Ed.
  replace (apply_op ODefault (VStr "") false (VStr d) (entry_essential e)) with (Ok (VStr d, true)) by reflexivity. cbn [bind].
  destruct (se_one_of s) as [lo|]; cbn [operand_is opt] in *; [|destruct N; exact I].
  destruct Eo as (o & -> & So). unfold apply_op at 1. cbn [negb andb]. rewrite (strs_not_nil _ _ So), (slice_contains_strs d o lo So).
  destruct (mem d lo) eqn:M; [destruct N; now apply mem_In|reflexivity].
Qed.

Definition e_sup : entry := [("default", arr_of ["openid"; "email"]); ("subset_of", arr_of ["openid"; "email"; "profile"])].
Definition e_sub : entry := [("subset_of", arr_of ["openid"; "profile"])].
Lemma default_merged : exists a b m d n, verify_entry a = Ok tt /\ run_verifiers default_checks a = Ok tt /\
  verify_entry b = Ok tt /\ run_verifiers default_checks b = Ok tt /\ merge_entries a b = Ok m /\ verify_entry m = Ok tt /\
  apply_to a (VSlice TStr true []) false = Ok (VSlice TStr n (map VStr d)) /\
  exists n' c, apply_to m (VSlice TStr true []) false = Ok (VSlice TStr n' (map VStr c)) /\ ~ same_elements c d.
Proof.
  exists e_sup, e_sub. eexists. exists ["openid"; "email"], false.
  repeat (split; [vm_compute; reflexivity|]). exists false, ["openid"]. split; [vm_compute; reflexivity|].
  intros H. destruct (proj2 (H "email")) as [E|[]]; [right; now left|discriminate E].
Qed.
