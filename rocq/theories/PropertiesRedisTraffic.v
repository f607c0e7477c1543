(** C154: the HTTP requests of a resolution with redis. *)
From Coq Require Import QArith.
From Verif Require Import Base GoVal Policy Schema Metadata Chain Resolver SpecResolver WitnessResolver TrustMark Refresher FloatTime Cache
  Requests SpecRequests WitnessRequests Traffic SpecTraffic RedisTrafficFacts WitnessTraffic WitnessRedisTraffic.
Local Open Scope nat_scope.
Local Open Scope string_scope.

(** ** C154 A resolution bothers every server once *)

(** With redis, whatever it contains, and for any number of requests, if the grace period is
    at least a millisecond, to which redis rounds. Missing: requests that are not answered
    (C154_unanswered_refuted), and a redis server that removes entries for lack of memory. *)
Theorem C154_redis_once_partial : forall grace factor from upto net t rs l,
  (0 < from)%Z -> (ms <= grace)%Z -> within from upto t -> lasting grace from upto net l ->
  NoDup (map kept_as (filter (gets_answer net) (sent grace factor net t 0 rs (Redis l)))).
Proof. exact answered_once_redis. Qed.
Print Assumptions C154_redis_once_partial.

(** So the number of answered HTTP requests of a resolution is linear here, too. *)
Theorem C154_redis_linear_partial : forall U b grace factor from upto net t fuel w tas types start l,
  (0 < from)%Z -> (ms <= grace)%Z -> within from upto t -> lasting grace from upto net l ->
  federation_of U b w -> same_names w -> In start U ->
  List.length (filter (gets_answer net) (sent grace factor net t 0 (resolve_requests fuel w tas types start) (Redis l))) <= List.length U * (b + 1).
Proof. exact traffic_linear_redis. Qed.
Print Assumptions C154_redis_linear_partial.

(** 13 requests of a resolution that takes several milliseconds are answered, 11 of them by
    HTTP. *)
Example C154_redis_case :
  within 500%Z (100 * ms)%Z each_half_ms /\ lasting (1000 * ms)%Z 500%Z (100 * ms)%Z (asked_directly (ladder_10s 2)) [] /\
  federation_of (victim :: ladder_ids 2) 2 (ladder_10s 2) /\ same_names (ladder_10s 2) /\
  seen_through (asked_directly (ladder_10s 2)) each_half_ms (ladder_10s 2) 0 (resolve_requests 5 (ladder_10s 2) tas0 [] (rung true 0)) (Redis []) /\
  List.length (filter (gets_answer (asked_directly (ladder_10s 2))) (resolve_requests 5 (ladder_10s 2) tas0 [] (rung true 0))) = 13 /\
  List.length (filter (gets_answer (asked_directly (ladder_10s 2)))
    (sent (1000 * ms)%Z (3 # 4) (asked_directly (ladder_10s 2)) each_half_ms 0 (resolve_requests 5 (ladder_10s 2) tas0 [] (rung true 0)) (Redis []))) = 11.
Proof. exact redis_case. Qed.
