(** Witnesses for collecting from a network that does not change. *)
From Verif Require Import Base BaseFacts GoVal Policy Schema Metadata Chain Resolver FloatTime Json TrustMark WitnessResolver WitnessTrustMark
  Discovery SpecDiscovery SpecSteady WitnessDiscovery.
Local Open Scope nat_scope.
Local Open Scope string_scope.

Lemma steady0 rq : In rq [rq0; rq_of (Some ["openid_provider"]) "" None] -> steady 9 cenv0 rq.
Proof.
  intros I. split; [reflexivity |]. intros p p' b. unfold entity_answer. rewrite !te_config0.
  destruct (lookup b configs0) as [s|] eqn:L; [| reflexivity]. apply lookup_In in L.
  destruct I as [<- | [<- | []]];
    destruct L as [[= <- <-] | [[= <- <-] | [[= <- <-] | [[= <- <-] | [[= <- <-] | []]]]]]; vm_compute; reflexivity.
Qed.

(** Another schedule: always the last goroutine that can make a step. *)
Fixpoint drive_last (w : dworld) (n : nat) (s : list string * frame) : list choice :=
  match n with
  | 0 => []
  | S n' => match find (fun c => match step w c (fst s) (snd s) with Some _ => true | None => false end) (rev (choices (snd s))) with
            | Some c => c :: match step w c (fst s) (snd s) with Some s' => drive_last w n' s' | None => [] end
            | None => []
            end
  end.
Definition schedule_last := Eval vm_compute in drive_last world0 300 (start TA).
Definition result_last : list collected :=
  Eval vm_compute in match exec world0 schedule_last (start TA) with Some s => f_out (snd s) | None => [] end.

Lemma returns_last : returns world0 TA result_last.
Proof.
  destruct (exec world0 schedule_last (start TA)) as [s|] eqn:E; [| vm_compute in E; discriminate].
  exists s. split; [now exists schedule_last |].
  assert (K : match exec world0 schedule_last (start TA) with Some s => finished (snd s) = true /\ f_out (snd s) = result_last | None => False end)
    by (vm_compute; auto).
  now rewrite E in K.
Qed.

Lemma steady_case : network 9 cenv0 rq0 world0 /\ steady 9 cenv0 rq0 /\ returns world0 (cr_anchor rq0) result0 /\
  returns world0 (cr_anchor rq0) result_last /\ map ce_id result0 = [I1; OP1; I2] /\ map ce_id result_last = [I1; I2; OP1].
Proof.
  split; [exact network0 |]. split; [apply steady0; now left |]. split; [exact returns0 |]. split; [exact returns_last |].
  split; vm_compute; reflexivity.
Qed.

(** A request for providers only. *)
Definition rq_ops := rq_of (Some ["openid_provider"]) "" None.
Definition world_ops : dworld :=
  DWorld (fun p a => listing_answer cenv0 p a)
         (fun p b => match entity_answer 9 cenv0 rq_ops p b with Done (Ok r) => r | _ => (None, false) end).
Lemma network_ops : network 9 cenv0 rq_ops world_ops.
Proof.
  split; [reflexivity |]. intros p b. cbn [dw_entity world_ops].
  assert (H : exists r, entity_answer 9 cenv0 rq_ops p b = Done (Ok r)); [| destruct H as [r ->]; reflexivity].
  unfold entity_answer. rewrite te_config0.
  destruct (lookup b configs0) as [s|] eqn:L; [| eauto]. apply lookup_In in L.
  destruct L as [[= <- <-] | [[= <- <-] | [[= <- <-] | [[= <- <-] | [[= <- <-] | []]]]]]; eexists; vm_compute; reflexivity.
Qed.
Definition schedule_ops := Eval vm_compute in drive world_ops 200 (start TA).
Definition result_ops : list collected :=
  Eval vm_compute in match exec world_ops schedule_ops (start TA) with Some s => f_out (snd s) | None => [] end.
Lemma returns_ops : returns world_ops TA result_ops.
Proof.
  destruct (exec world_ops schedule_ops (start TA)) as [s|] eqn:E; [| vm_compute in E; discriminate].
  exists s. split; [now exists schedule_ops |].
  assert (K : match exec world_ops schedule_ops (start TA) with Some s => finished (snd s) = true /\ f_out (snd s) = result_ops | None => False end)
    by (vm_compute; auto).
  now rewrite E in K.
Qed.

Lemma narrower_case : narrower rq0 rq_ops /\ network 9 cenv0 rq0 world0 /\ network 9 cenv0 rq_ops world_ops /\
  steady 9 cenv0 rq0 /\ steady 9 cenv0 rq_ops /\ steady_marks 9 cenv0 /\
  returns world0 (cr_anchor rq0) result0 /\ returns world_ops (cr_anchor rq_ops) result_ops /\ map ce_id result_ops = [OP1].
Proof.
  split.
  { split; [reflexivity |]. split; [| split; [intros x [] |]]; [| intros H; now destruct H].
    intros l [= <-]. exists ["openid_provider"]. split; [reflexivity |]. intros x [<- | []]. now left. }
  split; [exact network0 |]. split; [exact network_ops |]. split; [apply steady0; now left |].
  split; [apply steady0; right; now left |]. split; [intros i j q ty jwt ta; reflexivity |].
  split; [exact returns0 |]. split; [exact returns_ops | vm_compute; reflexivity].
Qed.
