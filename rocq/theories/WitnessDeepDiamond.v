(** A federation in which two intermediates below an intermediate list a fourth one. *)
From Coq Require Import Lia.
From Verif Require Import Base BaseFacts GoVal Policy Schema Metadata Chain Resolver FloatTime Json TrustMark WitnessResolver WitnessTrustMark Discovery SpecDiscovery
  DiscoveryFacts EvalFacts DiscoveryLaws WitnessDiscovery WitnessDiamond SpecDeep.
Local Open Scope nat_scope.
Local Open Scope string_scope.

Definition I4 := "https://i4.example".
Definition configs5 : smap stmt := (I4, mk "k4" I4 I4 ["k4"] [I2; I3] (md_list "i4/list") None [] 1000%Z) :: configs3.
Definition lists5 : smap (list string) := [("ta/list", [OP1; I1]); ("i1/list", [I2; I3]); ("i2/list", [RP1; I4]); ("i3/list", [I4]); ("i4/list", [OP1])].
Definition cenv5 : cenv :=
  CEnv (env_of LocalR (tables configs5 []) [] [] [] no_remote) (fun _ ep => lookup ep lists5) (fun n h => has_prefix n h).
Definition world5 : dworld :=
  DWorld (fun p a => listing_answer cenv5 p a)
         (fun p b => match entity_answer 9 cenv5 rq0 p b with Done (Ok r) => r | _ => (None, false) end).

Lemma network5 : network 9 cenv5 rq0 world5.
Proof.
  split; [reflexivity|]. intros p b. cbn [dw_entity world5].
  assert (H : exists r, entity_answer 9 cenv5 rq0 p b = Done (Ok r)); [|destruct H as [r ->]; reflexivity].
  unfold entity_answer. change (te_config (ce_env cenv5) (2 :: p) b) with (lookup b configs5).
  destruct (lookup b configs5) as [s|] eqn:L; [|eauto]. apply lookup_In in L.
  destruct L as [[= <- <-]|[[= <- <-]|[[= <- <-]|[[= <- <-]|[[= <- <-]|[[= <- <-]|[[= <- <-]|[]]]]]]]]; eexists; vm_compute; reflexivity.
Qed.
Lemma finite5 : names_entities world5 /\ finite_world world5.
Proof.
  split; [exact (network_names _ _ _ _ network5)|].
  exists [I1; I2; I3; I4; OP1; RP1], 2. intros p a l. cbn [dw_listing world5]. unfold listing_answer.
  match goal with |- match ?t with _ => _ end = _ -> _ => change t with (lookup a configs5) end.
  destruct (lookup a configs5) as [s|]; [|discriminate]. destruct (String.eqb (list_endpoint s) ""); [discriminate|].
  cbn [ce_list cenv5]. intros L. apply lookup_In in L.
  destruct L as [[= _ <-]|[[= _ <-]|[[= _ <-]|[[= _ <-]|[[= _ <-]|[]]]]]]; (split; [cbn; lia|intros x I; cbn in *; tauto]).
Qed.
Lemma deep_diamond_case : names_entities world5 /\ finite_world world5 /\ way world5 TA [TA] [0; 2] I1 /\
  dw_listing world5 [0; 2] I1 = Some [I2; I3] /\ dw_listing world5 [0; 1; 0; 2] I2 = Some [RP1; I4] /\ dw_listing world5 [0; 2; 0; 2] I3 = Some [I4] /\
  snd (dw_entity world5 [1; 0; 2] I2) = true /\ snd (dw_entity world5 [2; 0; 2] I3) = true /\
  snd (dw_entity world5 [2; 0; 1; 0; 2] I4) = true /\ snd (dw_entity world5 [1; 0; 2; 0; 2] I4) = true /\
  2 < max_workers /\ NoDup [I4; I3; I2; I1; TA].
Proof.
  split; [exact (proj1 finite5)|]. split; [exact (proj2 finite5)|]. split.
  { apply (way_sub world5 TA [] [] TA [OP1; I1] 1 I1); [apply way_anchor|intros []|vm_compute; reflexivity|vm_compute; repeat constructor|reflexivity|vm_compute; reflexivity]. }
  repeat (split; [first [vm_compute; reflexivity|vm_compute; repeat constructor]|]).
  repeat constructor; cbn; intros H; repeat (destruct H as [H|H]; [discriminate|]); exact H.
Qed.
