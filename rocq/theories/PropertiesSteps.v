(** Property theorems about resolvers used step by step (C142). [..._refuted] gives a
    counterexample to the full statement of the property, [..._partial] the version that holds. *)
From Coq Require Import QArith.
From Verif Require Import Base GoVal Policy Schema Metadata Chain Resolver SpecResolver WitnessResolver TrustMark Refresher FloatTime Cache SpecCache WitnessCache Steps SpecSteps StepsFacts WitnessSteps.
Local Open Scope nat_scope.
Local Open Scope string_scope.
Local Open Scope list_scope.

(** ** C142 The steps of a resolver can be called one by one, and again *)

(** Missing: redis (C142_refuted_redis). Whatever was called before, on this resolver and on
    others: chains read after a verification are chains that a resolution returns. *)
Theorem C142_verified_partial : forall hash v objs h rs c who f w t cs s' ch,
  history hash (start_with objs (Memory [])) h (rs, c) -> Forall (ordinary v) h -> ordinary v (ECall who MChains f w t) ->
  verified_last who h = true -> happens hash (rs, c) (ECall who MChains f w t) cs s' -> In ch cs ->
  exists start tas types m f0 w0, nth_error objs who = Some (start, tas, types) /\ In (m, f0, w0) (calls_of who h) /\
    (m = MResolve \/ m = MValidChains) /\ returned w0 tas types start ch.
Proof. exact chains_verified. Qed.
Print Assumptions C142_verified_partial.

(** Missing: redis. Resolve, then VerifySignatures and Chains as often as one likes. *)
Theorem C142_stepwise_partial : forall hash v objs h rs c who f w t cs s' start tas types f0 w0 rest,
  history hash (start_with objs (Memory [])) h (rs, c) -> Forall (ordinary v) h -> ordinary v (ECall who MChains f w t) ->
  nth_error objs who = Some (start, tas, types) ->
  calls_of who h = (MResolve, f0, w0) :: rest -> (forall m f1 w1, In (m, f1, w1) rest -> m = MVerifySignatures \/ m = MChains) ->
  verified_last who h = true ->
  happens hash (rs, c) (ECall who MChains f w t) cs s' ->
  resolve_chains f0 w0 tas types start = Done (Ok cs).
Proof. exact chains_stepwise. Qed.
Print Assumptions C142_stepwise_partial.

Example C142_case : forall hash, exists rs c s',
  history hash (start_with program0 (Memory [])) first_calls (rs, c) /\ verified_last 1 first_calls = true /\
  calls_of 1 first_calls = [(MResolve, 5, net0); (MVerifySignatures, 5, net0); (MChains, 5, net0); (MVerifySignatures, 5, net0)] /\
  happens hash (rs, c) (ECall 1 MChains 5 net0 at500) [chain0 leaf0 None None []] s'.
Proof. exact steps_case. Qed.
Example C142_case_ordinary : Forall (ordinary verifies0) first_calls.
Proof. exact first_ordinary. Qed.

(** Missing: redis, and starting entities that cannot be reached (C142_refuted_again). A
    resolver that has been used can be used again. *)
Theorem C142_again_partial : forall hash v objs h rs c who f w t cs s' start tas types,
  history hash (start_with objs (Memory [])) h (rs, c) -> Forall (ordinary v) h -> ordinary v (ECall who MValidChains f w t) ->
  nth_error objs who = Some (start, tas, types) -> start <> "" -> w_config w [] start <> None ->
  happens hash (rs, c) (ECall who MValidChains f w t) cs s' ->
  resolve_chains f w tas types start = Done (Ok cs).
Proof. exact valid_again. Qed.
Print Assumptions C142_again_partial.

(** With any cache, a new resolver's method does what its steps do. *)
Theorem C142_new : forall hash f w t start tas types c cs r' c',
  do_call hash MValidChains f w t (new_resolver start tas types) c = Done (Ok (cs, r', c')) ->
  resolve_cached hash f w tas types start t c = (Done (Ok cs), c').
Proof. exact valid_fresh. Qed.
Print Assumptions C142_new.

(** With redis: chains that one resolver reads before it verifies them are what others get as
    verified ones. *)
Theorem C142_refuted_redis : forall hash, exists objs h rs c start tas types who f w t cs s' ch,
  history hash (start_with objs (Redis [])) h (rs, c) /\ (exists v, Forall (ordinary v) h /\ ordinary v (ECall who MValidChains f w t)) /\
  nth_error objs who = Some (start, tas, types) /\ calls_of who h = [] /\
  happens hash (rs, c) (ECall who MValidChains f w t) cs s' /\ In ch cs /\ List.length ch <> 1 /\ ~ signed_chain w tas ch.
Proof. exact poison_refuted. Qed.
Print Assumptions C142_refuted_redis.

(** A resolver used again when nothing can be reached any more returns the chains of the last
    time, even if all their statements have expired. *)
Theorem C142_refuted_again : forall hash, exists objs h rs c start tas types who f w t cs s' ch,
  history hash (start_with objs (Memory [])) h (rs, c) /\ (exists v, Forall (ordinary v) h /\ ordinary v (ECall who MValidChains f w t)) /\
  nth_error objs who = Some (start, tas, types) /\
  (forall p id, w_config w p id = None) /\ resolve_chains f w tas types start = Done (Ok []) /\
  happens hash (rs, c) (ECall who MValidChains f w t) cs s' /\ In ch cs /\ forall s i, In s ch -> (st_exp s < t i)%Z.
Proof. exact stale_refuted. Qed.
Print Assumptions C142_refuted_again.
