(** The anchor of WitnessTree has two intermediates. *)
From Verif Require Import Base GoVal Policy Schema Metadata Chain Resolver FloatTime Json TrustMark WitnessResolver Discovery SpecDiscovery WitnessDiscovery WitnessTree.
Local Open Scope nat_scope.
Local Open Scope string_scope.

Lemma race_case : network 9 cenv1 rq0 world1 /\ dw_listing world1 [] TA = Some [I1; I2] /\ List.length [I1; I2] < max_workers /\
  snd (dw_entity world1 [1] I1) = true /\ snd (dw_entity world1 [2] I2) = true /\ I1 <> TA.
Proof.
  split; [exact network1|]. split; [vm_compute; reflexivity|]. split; [vm_compute; repeat constructor|].
  split; [vm_compute; reflexivity|]. split; [vm_compute; reflexivity|discriminate].
Qed.
