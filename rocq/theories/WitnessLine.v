(** A federation in which no authority has two subordinate authorities. *)
From Verif Require Import Base BaseFacts GoVal Policy Schema Metadata Chain Resolver FloatTime Json TrustMark WitnessResolver Discovery SpecDiscovery
  DiscoveryFacts EvalFacts DiscoveryLaws WitnessDiscovery SpecAsked AskedFacts WitnessAsked SpecLine LineFacts.
Local Open Scope nat_scope.
Local Open Scope string_scope.

(** Like the federation of WitnessDiscovery, but the trust anchor lists one intermediate and a leaf, the intermediate
    lists another intermediate, that one an RP and the first intermediate again. *)
Definition lists2 : smap (list string) := [("ta/list", [I1; OP1]); ("i1/list", [RP1; I2]); ("i2/list", [I1; RP1])].
Definition cenv2 : cenv := CEnv (ce_env cenv0) (fun _ ep => lookup ep lists2) (fun n h => has_prefix n h).
Definition world2 : dworld :=
  DWorld (fun p a => listing_answer cenv2 p a)
         (fun p b => match entity_answer 9 cenv2 rq0 p b with Done (Ok r) => r | _ => (None, false) end).
Definition authority2 (b : string) : bool := mem b [TA; I1; I2].

Lemma network2 : network 9 cenv2 rq0 world2.
Proof.
  split; [reflexivity|]. intros p b. cbn [dw_entity world2].
  assert (H : exists r, entity_answer 9 cenv2 rq0 p b = Done (Ok r)); [|destruct H as [r ->]; reflexivity].
  unfold entity_answer. change (ce_env cenv2) with (ce_env cenv0). rewrite te_config0.
  destruct (lookup b configs0) as [s|] eqn:L; [|eauto]. apply lookup_In in L.
  destruct L as [[= <- <-]|[[= <- <-]|[[= <- <-]|[[= <- <-]|[[= <- <-]|[]]]]]]; eexists; vm_compute; reflexivity.
Qed.
Lemma line2 : one_authority world2 authority2.
Proof.
  split.
  - intros b [p H]. cbn [dw_entity world2] in H. unfold entity_answer in H. change (ce_env cenv2) with (ce_env cenv0) in H.
    rewrite te_config0 in H. destruct (lookup b configs0) as [s|] eqn:L; [|discriminate]. apply lookup_In in L.
    destruct L as [[= <- <-]|[[= <- <-]|[[= <- <-]|[[= <- <-]|[[= <- <-]|[]]]]]]; first [reflexivity|vm_compute in H; discriminate].
  - intros p a l. cbn [dw_listing world2]. unfold listing_answer. change (ce_env cenv2) with (ce_env cenv0). rewrite te_config0.
    destruct (lookup a configs0) as [s|] eqn:L; [|discriminate]. apply lookup_In in L.
    destruct L as [[= <- <-]|[[= <- <-]|[[= <- <-]|[[= <- <-]|[[= <- <-]|[]]]]]]; intros H; vm_compute in H; try discriminate;
      injection H as <-; vm_compute; repeat constructor.
Qed.

(** The schedule in which every other goroutine runs before an entity is noted. *)
Definition schedule2 := Eval vm_compute in drive_late world2 400 (start TA).
Lemma line_case : network 9 cenv2 rq0 world2 /\ one_authority world2 authority2 /\
  (exists s, exec world2 schedule2 (start TA) = Some s /\ finished (snd s) = true) /\
  asked_for_lists world2 schedule2 (start TA) = [TA; I1; I2].
Proof.
  split; [exact network2|]. split; [exact line2|]. split; [apply ends; vm_compute; reflexivity|]. vm_compute; reflexivity.
Qed.
