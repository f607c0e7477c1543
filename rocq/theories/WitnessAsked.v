(** Executions for the theorems on which authorities a collection asks: one in which the two
    accesses to the set of visited entities stay together, and one in which they do not. *)
From Verif Require Import Base BaseFacts GoVal Policy Schema Metadata Chain Resolver FloatTime Json TrustMark WitnessResolver Discovery SpecDiscovery
  DiscoveryFacts EvalFacts DiscoveryLaws WitnessDiscovery SpecAsked AskedFacts.
Local Open Scope nat_scope.
Local Open Scope string_scope.

(** Decides [undisturbed]. *)
Fixpoint same_choice (c c' : choice) : bool :=
  match c, c' with
  | Collect, Collect => true
  | At i c, At j c' => (Nat.eqb i j && same_choice c c')%bool
  | _, _ => false
  end.
Lemma same_choice_eq c : forall c', same_choice c c' = true -> c' = c.
Proof.
  induction c as [|i c IH]; intros [|j c'] H; try discriminate; [reflexivity|].
  cbn in H. apply Bool.andb_true_iff in H. destruct H as [E S]. apply Nat.eqb_eq in E. subst j. now rewrite (IH c' S).
Qed.
Fixpoint undisturbed_b (w : dworld) (cs : list choice) (s : list string * frame) : bool :=
  match cs with
  | [] => true
  | c :: cs' =>
      (match acting c (snd s) with
       | Some (Check p a) => if mem a (fst s) then true else match cs' with [] => true | c' :: _ => same_choice c c' end
       | _ => true
       end && match step w c (fst s) (snd s) with Some s' => undisturbed_b w cs' s' | None => true end)%bool
  end.
Lemma undisturbed_b_ok w cs : forall s, undisturbed_b w cs s = true -> undisturbed w cs s.
Proof.
  induction cs as [|c cs IH]; intros s H; [exact I|]. cbn [undisturbed_b undisturbed] in *.
  apply Bool.andb_true_iff in H. destruct H as [H1 H2]. split.
  - intros p a A N. rewrite A in H1. apply mem_nIn in N. rewrite N in H1.
    destruct cs as [|c' cs]; [now left|]. right. exists cs. now rewrite (same_choice_eq c c' H1).
  - destruct (step w c (fst s) (snd s)) as [s'|]; [now apply IH|exact I].
Qed.

(** A schedule that lets every other goroutine run before an entity is noted as visited. *)
Definition adds (s : list string * frame) (c : choice) : bool :=
  match acting c (snd s) with Some (Add _ _) => true | _ => false end.
Fixpoint drive_late (w : dworld) (n : nat) (s : list string * frame) : list choice :=
  match n with
  | 0 => []
  | S n' =>
      let l := filter (fun c => match step w c (fst s) (snd s) with Some _ => true | None => false end) (choices (snd s)) in
      match (filter (fun c => negb (adds s c)) l ++ l)%list with
      | c :: _ => c :: match step w c (fst s) (snd s) with Some s' => drive_late w n' s' | None => [] end
      | [] => []
      end
  end.
Definition schedule_late := Eval vm_compute in drive_late world0 400 (start TA).

Lemma world0_names : names_entities world0.
Proof. exact (network_names 9 cenv0 rq0 world0 network0). Qed.

Lemma ends w cs ta : match exec w cs (start ta) with Some s => finished (snd s) | None => false end = true ->
  exists s, exec w cs (start ta) = Some s /\ finished (snd s) = true.
Proof. destruct (exec w cs (start ta)) as [s|]; [eauto|discriminate]. Qed.

Lemma asked_case : names_entities world0 /\ undisturbed world0 schedule0 (start TA) /\
  (exists s, exec world0 schedule0 (start TA) = Some s /\ finished (snd s) = true) /\
  asked_for_lists world0 schedule0 (start TA) = [TA; I1; I2].
Proof.
  split; [exact world0_names|]. split; [apply undisturbed_b_ok; vm_compute; reflexivity|].
  split; [apply ends; vm_compute; reflexivity|]. vm_compute. reflexivity.
Qed.

Lemma asked_twice : exists fuel ce rq w cs s, network fuel ce rq w /\ exec w cs (start (cr_anchor rq)) = Some s /\
  finished (snd s) = true /\ ~ NoDup (asked_for_lists w cs (start (cr_anchor rq))).
Proof.
  destruct (ends world0 schedule_late TA) as (s & E & F); [vm_compute; reflexivity|].
  exists 9, cenv0, rq0, world0, schedule_late, s. split; [exact network0|]. split; [exact E|]. split; [exact F|].
  replace (asked_for_lists world0 schedule_late (start (cr_anchor rq0))) with [TA; I1; I2; I2] by (vm_compute; reflexivity).
  intros N. inversion N as [|? ? _ N1]; subst. inversion N1 as [|? ? _ N2]; subst.
  inversion N2 as [|? ? H _]; subst. apply H. now left.
Qed.
