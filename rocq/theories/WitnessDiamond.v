(** A federation in which two intermediates list a third one. *)
From Verif Require Import Base BaseFacts GoVal Policy Schema Metadata Chain Resolver FloatTime Json TrustMark WitnessResolver WitnessTrustMark Discovery SpecDiscovery WitnessDiscovery.
Local Open Scope nat_scope.
Local Open Scope string_scope.

Definition I3 := "https://i3.example".
Definition configs3 : smap stmt := (I3, mk "k3" I3 I3 ["k3"] [I1; I2] (md_list "i3/list") None [] 1000%Z) :: configs0.
Definition lists3 : smap (list string) := [("ta/list", [I1; I2]); ("i1/list", [RP1; I3]); ("i2/list", [I3]); ("i3/list", [OP1])].
Definition cenv3 : cenv :=
  CEnv (env_of LocalR (tables configs3 []) [] [] [] no_remote) (fun _ ep => lookup ep lists3) (fun n h => has_prefix n h).
Definition world3 : dworld :=
  DWorld (fun p a => listing_answer cenv3 p a)
         (fun p b => match entity_answer 9 cenv3 rq0 p b with Done (Ok r) => r | _ => (None, false) end).

Lemma network3 : network 9 cenv3 rq0 world3.
Proof.
  split; [reflexivity|]. intros p b. cbn [dw_entity world3].
  assert (H : exists r, entity_answer 9 cenv3 rq0 p b = Done (Ok r)); [|destruct H as [r ->]; reflexivity].
  unfold entity_answer. change (te_config (ce_env cenv3) (2 :: p) b) with (lookup b configs3).
  destruct (lookup b configs3) as [s|] eqn:L; [|eauto]. apply lookup_In in L.
  destruct L as [[= <- <-]|[[= <- <-]|[[= <- <-]|[[= <- <-]|[[= <- <-]|[[= <- <-]|[]]]]]]]; eexists; vm_compute; reflexivity.
Qed.
Lemma diamond_case : network 9 cenv3 rq0 world3 /\
  dw_listing world3 [] TA = Some [I1; I2] /\ dw_listing world3 [0; 1] I1 = Some [RP1; I3] /\ dw_listing world3 [0; 2] I2 = Some [I3] /\
  snd (dw_entity world3 [1] I1) = true /\ snd (dw_entity world3 [2] I2) = true /\
  snd (dw_entity world3 [2; 0; 1] I3) = true /\ snd (dw_entity world3 [1; 0; 2] I3) = true /\
  2 < max_workers /\ NoDup [I3; I2; I1; TA].
Proof.
  split; [exact network3|]. repeat (split; [first [vm_compute; reflexivity|vm_compute; repeat constructor]|]).
  repeat constructor; cbn; intros H; repeat (destruct H as [H|H]; [discriminate|]); exact H.
Qed.
