(** A federation in which nobody has two superiors. *)
From Verif Require Import Base BaseFacts GoVal Policy Schema Metadata Chain Resolver FloatTime Json TrustMark WitnessResolver Discovery SpecDiscovery
  DiscoveryFacts EvalFacts DiscoveryLaws WitnessDiscovery SpecAsked AskedFacts WitnessAsked SpecTree TreeFacts.
Local Open Scope nat_scope.
Local Open Scope string_scope.

Definition lists1 : smap (list string) := [("ta/list", [I1; I2]); ("i1/list", [OP1]); ("i2/list", [RP1])].
Definition cenv1 : cenv := CEnv (ce_env cenv0) (fun _ ep => lookup ep lists1) (fun n h => has_prefix n h).
Definition world1 : dworld :=
  DWorld (fun p a => listing_answer cenv1 p a)
         (fun p b => match entity_answer 9 cenv1 rq0 p b with Done (Ok r) => r | _ => (None, false) end).

Lemma network1 : network 9 cenv1 rq0 world1.
Proof.
  split; [reflexivity|]. intros p b. cbn [dw_entity world1].
  assert (H : exists r, entity_answer 9 cenv1 rq0 p b = Done (Ok r)); [|destruct H as [r ->]; reflexivity].
  unfold entity_answer. change (ce_env cenv1) with (ce_env cenv0). rewrite te_config0.
  destruct (lookup b configs0) as [s|] eqn:L; [|eauto]. apply lookup_In in L.
  destruct L as [[= <- <-]|[[= <- <-]|[[= <- <-]|[[= <- <-]|[[= <- <-]|[]]]]]]; eexists; vm_compute; reflexivity.
Qed.

Lemma listing1 p a l : dw_listing world1 p a = Some l -> In (a, l) [(TA, [I1; I2]); (I1, [OP1]); (I2, [RP1])].
Proof.
  cbn [dw_listing world1]. unfold listing_answer. change (ce_env cenv1) with (ce_env cenv0). rewrite te_config0.
  destruct (lookup a configs0) as [s|] eqn:L; [|discriminate]. apply lookup_In in L.
  destruct L as [[= <- <-]|[[= <- <-]|[[= <- <-]|[[= <- <-]|[[= <- <-]|[]]]]]]; intros H; vm_compute in H; try discriminate;
    injection H as <-; vm_compute; auto.
Qed.
Lemma tree1 : one_superior world1 TA.
Proof.
  split.
  - intros p a l H. apply listing1 in H.
    destruct H as [[= <- <-]|[[= <- <-]|[[= <- <-]|[]]]]; (split; [repeat constructor|]); intros H;
      repeat (destruct H as [H|H]; [vm_compute in H; discriminate|]); exact H.
  - intros p a l p' a' l' b H H' I I'. apply listing1 in H, H'.
    destruct H as [[= <- <-]|[[= <- <-]|[[= <- <-]|[]]]]; destruct H' as [[= <- <-]|[[= <- <-]|[[= <- <-]|[]]]]; try reflexivity; exfalso;
      repeat (destruct I as [I|I]; [subst b; repeat (destruct I' as [I'|I']; [vm_compute in I'; discriminate|]); exact I'|]); exact I.
Qed.

(** Also the schedule in which every other goroutine runs before an entity is noted. *)
Definition schedule1 := Eval vm_compute in drive_late world1 400 (start TA).

Lemma same_choice_refl c : same_choice c c = true.
Proof. induction c as [|i c IH]; [reflexivity|]. cbn. now rewrite Nat.eqb_refl. Qed.
Lemma undisturbed_b_all w cs : forall s, undisturbed w cs s -> undisturbed_b w cs s = true.
Proof.
  induction cs as [|c cs IH]; intros s H; [reflexivity|]. cbn [undisturbed_b undisturbed] in *. destruct H as [H1 H2].
  apply Bool.andb_true_iff. split.
  - destruct (acting c (snd s)) as [[p a|p a|p a|p n l0|p b|e nest p b|p b|g|l0| |]|]; try reflexivity.
    destruct (mem a (fst s)) eqn:M; [reflexivity|].
    destruct (H1 p a eq_refl) as [-> |[cs2 ->]]; [now apply mem_nIn|reflexivity|apply same_choice_refl].
  - destruct (step w c (fst s) (snd s)) as [s'|]; [now apply IH|reflexivity].
Qed.

Lemma tree_case : network 9 cenv1 rq0 world1 /\ one_superior world1 (cr_anchor rq0) /\
  (exists s, exec world1 schedule1 (start TA) = Some s /\ finished (snd s) = true) /\
  ~ undisturbed world1 schedule1 (start TA) /\
  asked_for_lists world1 schedule1 (start TA) = [TA; I1; I2] /\ looked_at world1 schedule1 (start TA) = [I1; I2; OP1; RP1].
Proof.
  split; [exact network1|]. split; [exact tree1|]. split; [apply ends; vm_compute; reflexivity|].
  split; [|split; vm_compute; reflexivity].
  intros U. apply undisturbed_b_all in U. vm_compute in U. discriminate.
Qed.

Lemma looked_case : names_entities world0 /\
  (exists s, exec world0 schedule0 (start TA) = Some s /\ finished (snd s) = true) /\
  looked_at world0 schedule0 (start TA) = [I1; OP1; I2; I1; RP1; OP1; I2] /\
  below (lists_always world0) (asked_always world0) TA RP1.
Proof.
  split; [exact world0_names|]. split; [apply ends; vm_compute; reflexivity|]. split; [vm_compute; reflexivity|].
  assert (A : asked_always world0 I2) by (intros p; vm_compute; reflexivity).
  apply below_sub with I2; [apply below_anchor|exact A|].
  - intros p. exists [I1; I2]. split; [vm_compute; reflexivity|right; now left].
  - intros p. exists [I1; RP1; OP1]. split; [vm_compute; reflexivity|right; now left].
Qed.
Lemma looked_twice : exists fuel ce rq w cs s, network fuel ce rq w /\ exec w cs (start (cr_anchor rq)) = Some s /\
  finished (snd s) = true /\ undisturbed w cs (start (cr_anchor rq)) /\ ~ NoDup (looked_at w cs (start (cr_anchor rq))).
Proof.
  destruct (ends world0 schedule0 TA) as (s & E & F); [vm_compute; reflexivity|].
  exists 9, cenv0, rq0, world0, schedule0, s. split; [exact network0|]. split; [exact E|]. split; [exact F|].
  split; [apply undisturbed_b_ok; vm_compute; reflexivity|].
  replace (looked_at world0 schedule0 (start (cr_anchor rq0))) with [I1; OP1; I2; I1; RP1; OP1; I2] by (vm_compute; reflexivity).
  intros N. inversion N as [|? ? H _]; subst. apply H. right. right. now left.
Qed.

Definition listing0 (a : string) : option (list string) := listing_answer cenv0 [] a.
Lemma superiors_case : (forall p a, dw_listing world0 p a = listing0 a) /\ (forall a l, listing0 a = Some l -> NoDup l) /\
  count_occ string_dec (looked_at world0 schedule0 (start TA)) I2 = 2 /\
  filter (fun a => match listing0 a with Some l => mem I2 l | None => false end) (asked_for_lists world0 schedule0 (start TA)) = [TA; I1].
Proof.
  split; [|split; [|split; vm_compute; reflexivity]].
  - intros p a. cbn [dw_listing world0]. unfold listing0, listing_answer. now rewrite !te_config0.
  - intros a l. unfold listing0, listing_answer. rewrite te_config0.
    destruct (lookup a configs0) as [s|] eqn:L; [|discriminate]. apply lookup_In in L.
    destruct L as [[= <- <-]|[[= <- <-]|[[= <- <-]|[[= <- <-]|[[= <- <-]|[]]]]]]; intros H; vm_compute in H; try discriminate;
      injection H as <-; repeat constructor; intros H; repeat (destruct H as [H|H]; [vm_compute in H; discriminate|]); exact H.
Qed.

Lemma bounded_case : asked_for_lists world0 schedule_late (start TA) = [TA; I1; I2; I2] /\
  filter (fun a => match listing0 a with Some l => mem I2 l | None => false end) [TA; I1; I2; I2] = [TA; I1].
Proof. split; vm_compute; reflexivity. Qed.
