(** Concrete chains for the theorems about filters. *)
From Verif Require Import Base Chain SpecChain ChainFacts SpecFilter FilterFacts WitnessPolicy.
Local Open Scope string_scope.

Definition ending (id : string) (n : nat) : chain := (scored n ++ [bare id id])%list.

Lemma order_matters : exists f cs, alone f /\
  run_filters [filter_min_path_len; f] cs <> run_filters [f; filter_min_path_len] cs.
Proof.
  exists (filter_anchor "ta"), [ending "ta" 4; ending "other" 3]. split; [apply provided_alone|].
  vm_compute. discriminate.
Qed.

Lemma negative_bound : exists n cs, ~ exactly (fun c => (Z.of_nat (intermediates c) <= n)%Z) (filter_max_path_len n cs) cs.
Proof.
  exists (-1)%Z, [scored 5]. intros H. apply (exactly_In _ _ _ (scored 5)) in H.
  destruct H as [H _]. destruct H as [_ H]; [left; reflexivity|]. vm_compute in H. now apply H.
Qed.

Lemma negative_case : filter_max_path_len (-3) [scored 5; scored 4; scored 4] = [scored 4; scored 4].
Proof. reflexivity. Qed.

Lemma order_case :
  run_filters [filter_anchor "ta"; filter_max_path_len 2] [ending "ta" 4; ending "other" 3; ending "ta" 5; ending "ta" 4] =
    [ending "ta" 4; ending "ta" 4] /\
  (forall f, In f [filter_anchor "ta"; filter_max_path_len 2] -> alone f) /\
  run_filters [filter_min_path_len; filter_anchor "ta"] [ending "ta" 4; ending "other" 4; ending "ta" 5] = [ending "ta" 4].
Proof.
  split; [reflexivity|]. split; [|reflexivity].
  destruct provided_alone as (A & _ & M & _). intros f [<- | [<- | []]]; [apply A|apply M; lia].
Qed.
