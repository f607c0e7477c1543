(** Property theorems about caching (C31, C52-C55, C74, C75). [..._refuted] gives a
    counterexample to the full statement of the property, [..._partial] the version that
    holds. *)
From Coq Require Import QArith.
From Verif Require Import Base GoVal Policy Schema Metadata Chain Resolver SpecResolver TrustMark Refresher FloatTime Cache SpecUnits SpecCache CacheFacts CacheLaws WitnessResolver WitnessCache.
Local Open Scope nat_scope.
Local Open Scope string_scope.
Local Open Scope list_scope.

(** ** C31 Cached trust trees and chains expire with their statements *)

(** With the in-memory cache neither trees nor chains are ever cached, so none outlives its
    statements. Missing: they are not cached at all (C31_refuted_memory), and with redis
    they never expire (C31_refuted_redis). *)
Theorem C31_memory_partial : forall hash fuel w tas types start t l,
  (forall i, (zero_time + 2 <= t i)%Z) ->
  find_entry (tree_key hash start tas types) l = None -> find_entry (chains_key hash start tas types) l = None ->
  resolve_cached hash fuel w tas types start t (Memory l) = (resolve_chains fuel w tas types start, Memory l).
Proof. exact memory_transparent. Qed.
Print Assumptions C31_memory_partial.

Example C31_case : forall hash, resolve_cached hash 5 net0 tas0 [] LEAF at500 (Memory []) = (Done (Ok [chain0 leaf0 None None []]), Memory []).
Proof. exact c31_case. Qed.

Theorem C31_refuted_memory : forall hash, exists w tas types start t fuel c,
  resolve_cached hash fuel w tas types start t (Memory []) = (Done (Ok [c]), Memory []) /\
  forall s i, In s c -> (t i + 1 < st_exp s)%Z.
Proof. exact c31_memory. Qed.
Print Assumptions C31_refuted_memory.

(** Once a resolution has succeeded with redis, every later one with anchors of the same
    names returns the same chains, whatever the network and the clock say. *)
Theorem C31_redis_forever : forall hash fuel w tas types start t l cs c' fuel' w' tas' t',
  (forall i, (zero_time + 2 <= t i)%Z) -> anchor_ids tas' = anchor_ids tas ->
  red_find (t 0) (chains_key hash start tas types) l = None -> red_find (t 1) (tree_key hash start tas types) l = None ->
  red_find (t 4) (chains_key hash start tas types) l = None ->
  resolve_cached hash fuel w tas types start t (Redis l) = (Done (Ok cs), c') -> cs <> [] ->
  resolve_cached hash fuel' w' tas' types start t' c' = (Done (Ok (map (map stmt_msgpack) cs)), c').
Proof. exact redis_chains_forever. Qed.
Print Assumptions C31_redis_forever.


Example C31_redis_case : let hash := fun _ _ _ => "h" in exists cs c', (forall i, (zero_time + 2 <= at500 i)%Z) /\
  red_find 500%Z (chains_key hash LEAF tas0 []) (@nil (entry cached)) = None /\ red_find 500%Z (tree_key hash LEAF tas0 []) (@nil (entry cached)) = None /\
  resolve_cached hash 5 net0 tas0 [] LEAF at500 (Redis []) = (Done (Ok cs), c') /\ cs <> [].
Proof.
  eexists. eexists. split; [intros i; vm_compute; discriminate|]. split; [reflexivity|]. split; [reflexivity|].
  split; [vm_compute; reflexivity|discriminate].
Qed.
Theorem C31_refuted_redis : forall hash, exists w tas types start t fuel cs c t' ch s,
  resolve_cached hash fuel w tas types start t (Redis []) = (Done (Ok cs), c) /\
  (exists cs', resolve_cached hash fuel w tas types start t' c = (Done (Ok cs'), c) /\ In ch cs') /\
  In s ch /\ forall i, (st_exp s < t' i)%Z.
Proof. exact c31_redis. Qed.
Print Assumptions C31_refuted_redis.

(** ** C52 Cache keys never collide *)

(** Missing: subsystem names with a colon (C52_refuted); the library has none. *)
Theorem C52_keys_partial : forall s k s' k',
  ~ In ":"%char (list_ascii_of_string s) -> ~ In ":"%char (list_ascii_of_string s') ->
  cache_key s k = cache_key s' k' -> s = s' /\ k = k'.
Proof. exact keys_injective_gen. Qed.
Print Assumptions C52_keys_partial.

Theorem C52_subsystems : forall s k s' k',
  In s subsystem_names -> In s' subsystem_names -> cache_key s k = cache_key s' k' -> s = s' /\ k = k'.
Proof. exact keys_injective. Qed.
Print Assumptions C52_subsystems.

Theorem C52_statements : forall sub iss sub' iss', stmt_key sub iss = stmt_key sub' iss' -> sub = sub' /\ iss = iss'.
Proof. exact stmt_keys_injective. Qed.
Print Assumptions C52_statements.

Example C52_case : stmt_key "https://rp.example" "https://ta.example" =
  "entity_statement:aHR0cHM6Ly9ycC5leGFtcGxl:aHR0cHM6Ly90YS5leGFtcGxl".
Proof. exact c52_case. Qed.

Example C52_keys_case : In "trust_tree" subsystem_names /\ ~ In ":"%char (list_ascii_of_string "trust_tree") /\
  cache_key "trust_tree" "a:b" = "trust_tree:a:b".
Proof. split; [vm_compute; tauto|]. split; [cbn; intuition discriminate|reflexivity]. Qed.
Theorem C52_refuted : cache_key "a:b" "c" = cache_key "a" "b:c" /\ "a:b" <> "a".
Proof. exact c52_witness. Qed.
Print Assumptions C52_refuted.

(** ** C53 The in-memory cache returns the last live value *)

(** Whatever is returned was set last and is live. Missing: a duration of -1ns, for which
    [live] has no end (C53_refuted_never). *)
Theorem C53_sound_partial : forall (V : Type) (h : list (op V)) now k v,
  in_range h -> fst (cache_get now k (after_ops h (Memory []))) = Some v ->
  exists t ttl, last_set k h = Some (t, v, ttl) /\ live t ttl now.
Proof. exact @memory_sound. Qed.
Print Assumptions C53_sound_partial.

(** Missing: values evicted because 100000 other keys have been set since
    (C53_refuted_evicted). *)
Theorem C53_complete_partial : forall (V : Type) (h : list (op V)) now k t v ttl,
  ordered h now -> in_range h -> (N.of_nat (List.length (set_since k h)) < max_size)%N ->
  last_set k h = Some (t, v, ttl) -> live t ttl now ->
  fst (cache_get now k (after_ops h (Memory []))) = Some v.
Proof. exact @memory_complete. Qed.
Print Assumptions C53_complete_partial.

Example C53_case : ordered hist53 1050%Z /\ in_range hist53 /\
  last_set "a" hist53 = Some (1030%Z, "z", 100%Z) /\ live 1030%Z 100%Z 1050%Z /\
  fst (cache_get 1050%Z "a" (after_ops hist53 (Memory []))) = Some "z" /\
  fst (cache_get 1050%Z "b" (after_ops hist53 (Memory []))) = None.
Proof. exact c53_case. Qed.

Theorem C53_refuted_never : exists h now k v t ttl, ordered h now /\ in_range h /\ last_set k h = Some (t, v, ttl) /\
  (t + ttl < now)%Z /\ fst (cache_get now k (after_ops h (Memory []))) = Some (v : string).
Proof. exact c53_never. Qed.
Print Assumptions C53_refuted_never.
Theorem C53_refuted_evicted : exists h now k v t ttl, ordered h now /\ in_range h /\ last_set k h = Some (t, v : string, ttl) /\
  live t ttl now /\ ttl <> (-1)%Z /\ fst (cache_get now k (after_ops h (Memory []))) = None.
Proof. exact c53_evicted. Qed.
Print Assumptions C53_refuted_evicted.

(** ** C54 Cached entity statements are never served after their expiration *)

(** [t2 - t1] is the time that passes between reading the clock for the remaining lifetime
    and storing the statement. Missing: a statement stored exactly 1ns after its expiration
    (C54_refuted_memory), and times after 2262. *)
Theorem C54_memory_partial : forall h now sub iss s,
  (forall u, In u h -> proper u) -> uses_in_range h ->
  (forall u sub iss s t1 t2, In u h -> obtained u sub iss s t1 t2 -> until (st_exp s) t1 <> (-1)%Z) ->
  fst (stmt_cache_get now sub iss (after_uses h (Memory []))) = Some s ->
  exists h1 u h2 s0 t1 t2, h = h1 ++ u :: h2 /\ obtained u sub iss s0 t1 t2 /\ s = stmt_msgpack s0 /\
    (forall t1' t2' s', ~ In (URefresh t1' t2' sub iss (Some s')) h2) /\
    (now <= st_exp s + (t2 - t1))%Z.
Proof. exact memory_served. Qed.
Print Assumptions C54_memory_partial.

(** Missing for redis: up to 2ms after the expiration, and statements that had expired when
    they were obtained, which are kept for ever (C54_refuted_redis). *)
Theorem C54_redis_partial : forall h now sub iss s,
  (forall u, In u h -> proper u) -> uses_in_range h ->
  (forall u sub iss s t1 t2, In u h -> obtained u sub iss s t1 t2 -> (t1 < st_exp s)%Z) ->
  fst (stmt_cache_get now sub iss (after_uses h (Redis []))) = Some s ->
  exists h1 u h2 s0 t1 t2, h = h1 ++ u :: h2 /\ obtained u sub iss s0 t1 t2 /\ s = stmt_msgpack s0 /\
    (forall t1' t2' s', ~ In (URefresh t1' t2' sub iss (Some s')) h2) /\
    (now < st_exp s + (t2 - t1) + 2 * ms)%Z.
Proof. exact redis_served. Qed.
Print Assumptions C54_redis_partial.

(** What GetEntityConfiguration and FetchEntityStatement return is from the cache or has just
    been obtained. *)
Theorem C54_cached_or_fresh : forall now t1 t2 sub iss answer c s b,
  fst (get_statement now t1 t2 sub iss answer c) = Some (s, b) ->
  if b then fst (stmt_cache_get now sub iss c) = Some s else answer = Some s.
Proof. exact get_statement_result. Qed.
Print Assumptions C54_cached_or_fresh.

Example C54_case : (forall u, In u uses54 -> proper u) /\ uses_in_range uses54 /\
  (forall u sub iss s t1 t2, In u uses54 -> obtained u sub iss s t1 t2 -> (t1 < st_exp s)%Z /\ until (st_exp s) t1 <> (-1)%Z) /\
  fst (stmt_cache_get 1500%Z LEAF LEAF (after_uses uses54 (Memory []))) = Some (stmt54 2000%Z) /\
  fst (stmt_cache_get 1500%Z LEAF LEAF (after_uses uses54 (Redis []))) = Some (stmt54 2000%Z).
Proof. exact c54_case. Qed.

Theorem C54_refuted_memory : forall now, exists sub iss s t1 t2,
  fst (stmt_cache_get now sub iss (after_uses [URefresh t1 t2 sub iss (Some s)] (Memory []))) = Some s /\
  (st_exp s < t1)%Z /\ (0 < t1)%Z /\ (t1 <= t2)%Z.
Proof. exact c54_memory. Qed.
Print Assumptions C54_refuted_memory.
Theorem C54_refuted_redis : forall now, exists sub iss s t1 t2,
  fst (stmt_cache_get now sub iss (after_uses [UCall t1 t1 t2 sub iss (Some s)] (Redis []))) = Some s /\
  (st_exp s + 100 < t1)%Z /\ (0 < t1)%Z /\ (t1 <= t2)%Z.
Proof. exact c54_redis. Qed.
Print Assumptions C54_refuted_redis.

(** ** C55 Cached statements are refreshed as documented *)

(** Only within the grace period. Missing: the second condition is the opposite of the
    documented one (C55_refuted). *)
Theorem C55_grace_partial : forall grace factor now s,
  refresh_due grace factor now s = true -> (until (st_exp s) now <= grace)%Z.
Proof. exact refresh_within_grace. Qed.
Print Assumptions C55_grace_partial.

(** What the code does with the default factor, for lifetimes under 104 days: more than
    half of the lifetime must remain. *)
Theorem C55_default_partial : forall grace now s,
  (st_iat s < st_exp s < st_iat s + 2 ^ 53)%Z -> (st_iat s <= now < st_exp s)%Z ->
  (refresh_due grace (1 # 2) now s = true <->
   (st_exp s - now <= grace)%Z /\ (st_exp s - st_iat s < 2 * (st_exp s - now))%Z).
Proof. exact refresh_default. Qed.
Print Assumptions C55_default_partial.

Example C55_case : exists now s, (st_iat s < st_exp s < st_iat s + 2 ^ 53)%Z /\ (st_iat s <= now < st_exp s)%Z /\
  refresh_documented (an_hour) (1 # 2) now s.
Proof. exact c55_case. Qed.

(** With the default factor or a greater one, no statement is refreshed when it should be. *)
Theorem C55_refuted : forall grace factor now s,
  (1 # 2 <= factor)%Q -> (st_iat s < st_exp s < st_iat s + 2 ^ 63)%Z -> (st_iat s <= now < st_exp s)%Z ->
  refresh_documented grace factor now s -> refresh_due grace factor now s = false.
Proof. exact refresh_inverted. Qed.
Print Assumptions C55_refuted.
(** And some are when they should not be. *)
Theorem C55_refuted_early : exists now s, (st_iat s < now < st_exp s)%Z /\
  ~ refresh_documented (an_hour) (1 # 2) now s /\ refresh_due (an_hour) (1 # 2) now s = true.
Proof. exact c55_witness. Qed.
Print Assumptions C55_refuted_early.

(** ** C74 Cached trust chains belong to the configured anchor keys *)

(** Missing: redis (C74_refuted). *)
Theorem C74_memory_partial : forall hash fuel w tas types start t l cs c' c,
  (forall i, (zero_time + 2 <= t i)%Z) ->
  find_entry (tree_key hash start tas types) l = None -> find_entry (chains_key hash start tas types) l = None ->
  resolve_cached hash fuel w tas types start t (Memory l) = (Done (Ok cs), c') -> In c cs ->
  returned w tas types start c /\ c' = Memory l.
Proof. exact memory_returned. Qed.
Print Assumptions C74_memory_partial.

Example C74_case : forall hash, (forall i, (zero_time + 2 <= at500 i)%Z) /\
  resolve_cached hash 5 net0 tas0 [] LEAF at500 (Memory []) = (Done (Ok [chain0 leaf0 None None []]), Memory []) /\
  find_entry (tree_key hash LEAF tas0 []) (@nil (entry cached)) = None /\
  find_entry (chains_key hash LEAF tas0 []) (@nil (entry cached)) = None.
Proof. intros hash. split; [intros i; vm_compute; discriminate|]. split; [apply c31_case|split; reflexivity]. Qed.

Theorem C74_refuted : forall hash, exists w tas tas' types start t fuel cs c ch,
  anchor_ids tas' = anchor_ids tas /\
  resolve_cached hash fuel w tas types start t (Redis []) = (Done (Ok cs), c) /\
  (exists cs', resolve_cached hash fuel w tas' types start t c = (Done (Ok cs'), c) /\ In ch cs') /\
  ~ signed_chain w tas' ch.
Proof. exact c74_redis. Qed.
Print Assumptions C74_refuted.

(** ** C75 Cached statements are those of the requested entities *)

Theorem C75_own : forall h c0 now sub iss s,
  entries c0 = [] -> (forall u, In u h -> proper u) ->
  fst (stmt_cache_get now sub iss (after_uses h c0)) = Some s ->
  exists u s0 t1 t2, In u h /\ obtained u sub iss s0 t1 t2 /\ s = stmt_msgpack s0.
Proof. exact served_own. Qed.
Print Assumptions C75_own.

Example C75_case : entries (Memory (@nil (entry cached))) = [] /\ (forall u, In u uses54 -> proper u) /\
  fst (stmt_cache_get 1500%Z LEAF LEAF (after_uses uses54 (Memory []))) = Some (stmt54 2000%Z).
Proof. split; [reflexivity|]. split; [apply c54_case|apply c54_case]. Qed.

