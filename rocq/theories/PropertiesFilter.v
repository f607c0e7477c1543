(** Theorems about the order in which trust chains are filtered. *)
From Coq Require Import Permutation.
From Verif Require Import Base Chain SpecChain ChainFacts SpecFilter FilterFacts WitnessPolicy WitnessFilter.
Local Open Scope string_scope.

(** ** C33 Path length filters are exact *)

(** A negative bound keeps chains that are longer than it: it asks for the shortest ones. *)
Theorem C33_refuted : exists n cs,
  ~ exactly (fun c => (Z.of_nat (intermediates c) <= n)%Z) (filter_max_path_len n cs) cs.
Proof. exact negative_bound. Qed.
Print Assumptions C33_refuted.

Theorem C33_negative : forall n, (n < 0)%Z -> forall cs, filter_max_path_len n cs = filter_min_path_len cs.
Proof. exact negative_max. Qed.
Print Assumptions C33_negative.

Example C33_negative_case : filter_max_path_len (-3) [scored 5; scored 4; scored 4] = [scored 4; scored 4].
Proof. exact negative_case. Qed.

(** ** C151 Filters may be given in any order *)

(** Not if the minimum path length is among them. *)
Theorem C151_refuted : exists f cs, alone f /\
  run_filters [filter_min_path_len; f] cs <> run_filters [f; filter_min_path_len] cs.
Proof. exact order_matters. Qed.
Print Assumptions C151_refuted.

(** Missing: filters that compare the chains with each other (C151_refuted). *)
Theorem C151_order_partial : forall fs fs' cs, Permutation fs fs' -> (forall f, In f fs -> alone f) ->
  run_filters fs cs = run_filters fs' cs.
Proof. exact filters_order. Qed.
Print Assumptions C151_order_partial.

(** All other filters the library offers judge each chain on its own. *)
Theorem C151_provided : (forall id, alone (filter_anchor id)) /\ alone filter_valid_metadata /\
  (forall n, (0 <= n)%Z -> alone (filter_max_path_len n)) /\ (forall check, alone (filter_checker check)).
Proof. exact provided_alone. Qed.
Print Assumptions C151_provided.

(** Filtering for the minimum last gives the shortest of the chains that pass. *)
Theorem C151_min_last : forall P f cs, (forall ds, exactly P (f ds) ds) ->
  exactly (shortest_with P cs) (run_filters [f; filter_min_path_len] cs) cs.
Proof. exact min_last. Qed.
Print Assumptions C151_min_last.

(** Filtering for it first gives the same, or nothing. *)
Theorem C151_min_first_partial : forall f cs, alone f -> run_filters [filter_min_path_len; f] cs <> [] ->
  run_filters [filter_min_path_len; f] cs = run_filters [f; filter_min_path_len] cs.
Proof. exact min_first. Qed.
Print Assumptions C151_min_first_partial.

(** Filtering twice is filtering once. *)
Theorem C151_again : forall f cs, alone f \/ f = filter_min_path_len -> f (f cs) = f cs.
Proof. exact filter_again. Qed.
Print Assumptions C151_again.

Example C151_case :
  run_filters [filter_anchor "ta"; filter_max_path_len 2] [ending "ta" 4; ending "other" 3; ending "ta" 5; ending "ta" 4] =
    [ending "ta" 4; ending "ta" 4] /\
  (forall f, In f [filter_anchor "ta"; filter_max_path_len 2] -> alone f) /\
  run_filters [filter_min_path_len; filter_anchor "ta"] [ending "ta" 4; ending "other" 4; ending "ta" 5] = [ending "ta" 4].
Proof. exact order_case. Qed.
