(** A federation in which an intermediate has two intermediates below it, and the anchor one. *)
From Verif Require Import Base BaseFacts GoVal Policy Schema Metadata Chain Resolver FloatTime Json TrustMark WitnessResolver WitnessTrustMark Discovery SpecDiscovery
  WitnessDiscovery WitnessDiamond SpecDeep.
Local Open Scope nat_scope.
Local Open Scope string_scope.

Definition lists4 : smap (list string) := [("ta/list", [OP1; I1]); ("i1/list", [I2; I3]); ("i2/list", [RP1]); ("i3/list", [OP1])].
Definition cenv4 : cenv := CEnv (ce_env cenv3) (fun _ ep => lookup ep lists4) (fun n h => has_prefix n h).
Definition world4 : dworld :=
  DWorld (fun p a => listing_answer cenv4 p a)
         (fun p b => match entity_answer 9 cenv4 rq0 p b with Done (Ok r) => r | _ => (None, false) end).

Lemma network4 : network 9 cenv4 rq0 world4.
Proof.
  split; [reflexivity|]. intros p b. cbn [dw_entity world4].
  assert (H : exists r, entity_answer 9 cenv4 rq0 p b = Done (Ok r)); [|destruct H as [r ->]; reflexivity].
  unfold entity_answer. change (te_config (ce_env cenv4) (2 :: p) b) with (lookup b configs3).
  destruct (lookup b configs3) as [s|] eqn:L; [|eauto]. apply lookup_In in L.
  destruct L as [[= <- <-]|[[= <- <-]|[[= <- <-]|[[= <- <-]|[[= <- <-]|[[= <- <-]|[]]]]]]]; eexists; vm_compute; reflexivity.
Qed.
Lemma deep_case : network 9 cenv4 rq0 world4 /\ way world4 TA [TA] [0; 2] I1 /\ ~ In I1 [TA] /\
  dw_listing world4 [0; 2] I1 = Some [I2; I3] /\ 2 < max_workers /\
  snd (dw_entity world4 [1; 0; 2] I2) = true /\ snd (dw_entity world4 [2; 0; 2] I3) = true /\ ~ In I2 [I1; TA].
Proof.
  split; [exact network4|]. split.
  { apply (way_sub world4 TA [] [] TA [OP1; I1] 1 I1); [apply way_anchor|intros []|vm_compute; reflexivity|vm_compute; repeat constructor|reflexivity|vm_compute; reflexivity]. }
  assert (N : forall x l, mem x l = false -> ~ In x l) by (intros x l; apply mem_nIn).
  split; [now apply N|]. split; [vm_compute; reflexivity|]. split; [vm_compute; repeat constructor|].
  split; [vm_compute; reflexivity|]. split; [vm_compute; reflexivity|now apply N].
Qed.
