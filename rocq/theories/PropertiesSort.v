(** Sorting any number of chains, and what local resolution makes of it. *)
From Verif Require Import Base GoVal Policy Schema Metadata Chain SpecChain Sort SpecSort SortFacts SortLaws Resolver SpecResolver
  WitnessResolver WitnessPolicy TrustMark SpecTrustMark WitnessTrustMark WitnessSort.
From Coq Require Import NArith Permutation.
Local Open Scope nat_scope.
Local Open Scope string_scope.

(** ** C34 SortAsc and SortDesc sort *)

(** Nothing is lost or duplicated. *)
Theorem C34_any_permutation : forall score cs, Permutation (go_sort_asc score cs) cs /\ Permutation (go_sort_desc score cs) cs.
Proof. exact go_sort_perms. Qed.
Print Assumptions C34_any_permutation.

(** Chains that are in order stay as they are. *)
Theorem C34_any_sorted_partial : forall score cs,
  (sorted_by score cs -> go_sort_asc score cs = cs) /\
  (sorted_by (fun c => (- score c)%Z) cs -> go_sort_desc score cs = cs).
Proof. exact go_sort_sorted_input. Qed.
Print Assumptions C34_any_sorted_partial.

(** For at most twelve chains the algorithm is the one of the other theorems. *)
Theorem C34_any_small : forall score cs, List.length cs <= 12 ->
  go_sort_asc score cs = sort_asc score cs /\ go_sort_desc score cs = sort_desc score cs.
Proof. exact go_sort_small. Qed.
Print Assumptions C34_any_small.

(** Of at most twelve chains the one that comes first is the one up to which the scores of
    the given chains fall; there always is one. *)
Theorem C34_first_partial : forall score cs k, List.length cs <= 12 -> falls_to score cs k ->
  nth_error (go_sort_asc score cs) 0 = nth_error cs k.
Proof. exact sort_first. Qed.
Print Assumptions C34_first_partial.

Theorem C34_first_exists : forall score cs, cs <> [] -> exists k, falls_to score cs k.
Proof. exact falls_somewhere. Qed.
Print Assumptions C34_first_exists.

(** The bound the model puts on the depth of the recursion has no effect. *)
Theorem C34_bound_irrelevant : forall less n fuel, n < fuel ->
  pdq less fuel 0 n (N.size_nat (N.of_nat n)) true true = slice_swaps less n.
Proof. exact slice_fuel. Qed.
Print Assumptions C34_bound_irrelevant.

Theorem C34_any_refuted :
  (exists cs, 12 < List.length cs /\ ~ sorted_by score_len (go_sort_asc score_len cs)) /\
  (exists cs, 12 < List.length cs /\ ~ sorted_by (fun c => (- score_len c)%Z) (go_sort_desc score_len cs)).
Proof. exact sort_many_refuted. Qed.
Print Assumptions C34_any_refuted.

Example C34_any_case : falls_to score_len [scored 5; scored 3; scored 4; scored 1] 1 /\
  map (@List.length _) (go_sort_asc score_len [scored 5; scored 3; scored 4; scored 1]) = [3; 5; 1; 4] /\
  map (@List.length _) (go_sort_asc score_len (rev steps14)) = seq 0 14.
Proof. exact sort_case. Qed.

(** ** C35 Local resolution uses the shortest chain with valid metadata *)

(** Which chain is used, exactly, if there are at most twelve. *)
Theorem C35_chosen_partial : forall fuel e p rq cs m k,
  resolve_valid fuel (te_world e p rq) (map (fun id => Anchor id None) (rq_anchors rq)) (rq_types rq) (rq_sub rq) = Done (Ok cs) ->
  List.length cs <= 12 -> falls_to (fun c => Z.of_nat (path_len c)) cs k ->
  local_resolve fuel e p rq = Done (Ok m) -> chain_metadata (nth k cs []) = Ok m.
Proof. exact local_chosen. Qed.
Print Assumptions C35_chosen_partial.

(** So it is a shortest one if the lengths fall until they reach the least. *)
Theorem C35_falling_partial : forall fuel e p rq cs m k,
  resolve_valid fuel (te_world e p rq) (map (fun id => Anchor id None) (rq_anchors rq)) (rq_types rq) (rq_sub rq) = Done (Ok cs) ->
  List.length cs <= 12 -> falls_to (fun c => Z.of_nat (path_len c)) cs k -> minimal cs (nth k cs []) ->
  local_resolve fuel e p rq = Done (Ok m) -> exists c, minimal cs c /\ chain_metadata c = Ok m.
Proof. exact local_shortest_fall. Qed.
Print Assumptions C35_falling_partial.

(** And with any number of chains that are found in ascending order. *)
Theorem C35_ascending_partial : forall fuel e p rq cs m, te_swaps e = length_swaps ->
  resolve_valid fuel (te_world e p rq) (map (fun id => Anchor id None) (rq_anchors rq)) (rq_types rq) (rq_sub rq) = Done (Ok cs) ->
  sorted_by (fun c => Z.of_nat (path_len c)) cs ->
  local_resolve fuel e p rq = Done (Ok m) -> exists c, minimal cs c /\ chain_metadata c = Ok m.
Proof. exact local_shortest_any. Qed.
Print Assumptions C35_ascending_partial.

Example C35_falling_case : exists m,
  resolve_valid 9 (net_hints falling) [Anchor TA None] [] LEAF = Done (Ok (hints_chains falling)) /\
  lengths (hints_chains falling) = [2; 1; 0] /\
  falls_to (fun c => Z.of_nat (path_len c)) (hints_chains falling) 2 /\
  minimal (hints_chains falling) (nth 2 (hints_chains falling) []) /\
  local_resolve 9 (env_hints falling) [] (Req LEAF [TA] []) = Done (Ok m).
Proof. exact falling_case. Qed.
Example C35_ascending_case : exists m,
  resolve_valid 9 (net_hints many) [Anchor TA None] [] LEAF = Done (Ok (hints_chains many)) /\
  lengths (hints_chains many) = [0; 0; 0; 0; 0; 0; 0; 1; 1; 1; 1; 1; 1] /\
  sorted_by (fun c => Z.of_nat (path_len c)) (hints_chains many) /\
  local_resolve 9 (env_hints many) [] (Req LEAF [TA] []) = Done (Ok m).
Proof. exact many_case. Qed.
