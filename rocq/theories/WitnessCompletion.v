(** The federation of WitnessDiamond is finite, and both its first two intermediates list the third. *)
From Coq Require Import Lia.
From Verif Require Import Base BaseFacts GoVal Policy Schema Metadata Chain Resolver FloatTime Json TrustMark WitnessResolver WitnessTrustMark Discovery SpecDiscovery
  DiscoveryFacts EvalFacts DiscoveryLaws WitnessDiscovery SpecAsked SpecTree WitnessAsked WitnessDiamond.
Local Open Scope nat_scope.
Local Open Scope string_scope.

Lemma finite3 : names_entities world3 /\ finite_world world3.
Proof.
  split; [exact (network_names _ _ _ _ network3)|].
  exists [I1; I2; I3; OP1; RP1], 2. intros p a l. cbn [dw_listing world3]. unfold listing_answer.
  match goal with |- match ?t with _ => _ end = _ -> _ => change t with (lookup a configs3) end.
  destruct (lookup a configs3) as [s|]; [|discriminate]. destruct (String.eqb (list_endpoint s) ""); [discriminate|].
  cbn [ce_list cenv3]. intros L. apply lookup_In in L.
  destruct L as [[= _ <-]|[[= _ <-]|[[= _ <-]|[[= _ <-]|[]]]]]; (split; [cbn; lia|intros x I; cbn in *; tauto]).
Qed.
Definition listing3 (a : string) : option (list string) := listing_answer cenv3 [] a.
Definition schedule3 := Eval vm_compute in drive world3 400 (start TA).
Lemma two_case : (forall p a, dw_listing world3 p a = listing3 a) /\ (forall a l, listing3 a = Some l -> NoDup l) /\
  (exists s, exec world3 schedule3 (start TA) = Some s /\ finished (snd s) = true) /\
  below (lists_always world3) (asked_always world3) TA I1 /\ asked_always world3 I1 /\
  below (lists_always world3) (asked_always world3) TA I2 /\ asked_always world3 I2 /\
  listing3 I1 = Some [RP1; I3] /\ listing3 I2 = Some [I3] /\
  asked_for_lists world3 schedule3 (start TA) = [TA; I1; I3; I2] /\ looked_at world3 schedule3 (start TA) = [I1; RP1; I3; OP1; I2; I3].
Proof.
  split; [reflexivity|]. split.
  { intros a l. unfold listing3, listing_answer.
    match goal with |- match ?t with _ => _ end = _ -> _ => change t with (lookup a configs3) end.
    destruct (lookup a configs3) as [s|]; [|discriminate]. destruct (String.eqb (list_endpoint s) ""); [discriminate|].
    cbn [ce_list cenv3]. intros L. apply lookup_In in L.
    destruct L as [[= _ <-]|[[= _ <-]|[[= _ <-]|[[= _ <-]|[]]]]]; repeat constructor; cbn; intros H; repeat (destruct H as [H|H]; [discriminate|]); exact H. }
  split; [apply ends; vm_compute; reflexivity|].
  split; [apply below_anchor; intros p; exists [I1; I2]; split; [vm_compute; reflexivity|now left]|].
  split; [intros p; vm_compute; reflexivity|].
  split; [apply below_anchor; intros p; exists [I1; I2]; split; [vm_compute; reflexivity|right; now left]|].
  split; [intros p; vm_compute; reflexivity|].
  repeat (split; [vm_compute; reflexivity|]). vm_compute. reflexivity.
Qed.
