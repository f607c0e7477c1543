(** The HTTP requests of a resolution. See SpecTraffic.v for the vocabulary. *)
From Coq Require Import QArith.
From Verif Require Import Base GoVal Policy Schema Metadata Chain Resolver SpecResolver WitnessResolver TrustMark Refresher FloatTime Cache
  Requests SpecRequests WitnessRequests Traffic SpecTraffic TrafficFacts WitnessTraffic.
Local Open Scope nat_scope.
Local Open Scope string_scope.

(** ** C154 A resolution bothers every server once *)

(** With the in-memory cache, whatever it contains, and for any sequence of requests: what is
    answered is not asked for again, while the answers are valid. Missing: requests that are
    not answered (C154_unanswered_refuted), and 100000 requests and more, when the cache drops
    the oldest answers. *)
Theorem C154_once_partial : forall grace factor from upto net t rs l,
  (0 < from)%Z -> (0 <= grace)%Z -> within from upto t -> lasting grace from upto net l ->
  (N.of_nat (List.length rs) < max_size)%N ->
  NoDup (map kept_as (filter (gets_answer net) (sent grace factor net t 0 rs (Memory l)))).
Proof. exact answered_once. Qed.
Print Assumptions C154_once_partial.

(** So the number of answered HTTP requests of a resolution is linear in the number of
    entities, if each names at most [b] superiors. *)
Theorem C154_linear_partial : forall U b grace factor from upto net t fuel w tas types start l,
  (0 < from)%Z -> (0 <= grace)%Z -> within from upto t -> lasting grace from upto net l ->
  federation_of U b w -> same_names w -> In start U ->
  let rs := resolve_requests fuel w tas types start in
  (N.of_nat (List.length rs) < max_size)%N ->
  List.length (filter (gets_answer net) (sent grace factor net t 0 rs (Memory l))) <= List.length U * (b + 1).
Proof. exact traffic_linear. Qed.
Print Assumptions C154_linear_partial.

(** 13 requests of a resolution are answered, 11 of them by HTTP. *)
Example C154_case :
  within 500%Z 501%Z at_500 /\ lasting 100%Z 500%Z 501%Z (asked_directly (ladder 2)) [] /\
  federation_of (victim :: ladder_ids 2) 2 (ladder 2) /\ same_names (ladder 2) /\
  seen_through (asked_directly (ladder 2)) at_500 (ladder 2) 0 (resolve_requests 5 (ladder 2) tas0 [] (rung true 0)) (Memory []) /\
  List.length (filter (gets_answer (asked_directly (ladder 2))) (resolve_requests 5 (ladder 2) tas0 [] (rung true 0))) = 13 /\
  List.length (filter (gets_answer (asked_directly (ladder 2)))
    (sent 100%Z (3 # 4) (asked_directly (ladder 2)) at_500 0 (resolve_requests 5 (ladder 2) tas0 [] (rung true 0)) (Memory []))) = 11.
Proof. exact traffic_case. Qed.

(** Failures are not kept: with the cache, too, a server that does not answer is asked 2^n
    times in one resolution, among 2n+2 entities that each name at most two superiors. *)
Theorem C154_unanswered_refuted : forall n, exists U w tas start net,
  List.length U = 2 * n + 2 /\ federation_of U 2 w /\ same_names w /\ (forall p, net (ForConfig p victim) = None) /\
  forall fuel t, n < fuel ->
    seen_through net t w 0 (resolve_requests fuel w tas [] start) (Memory []) /\
    forall grace factor,
      2 ^ n <= List.length (filter (for_config_of victim) (sent grace factor net t 0 (resolve_requests fuel w tas [] start) (Memory []))).
Proof. exact unanswered_again. Qed.
Print Assumptions C154_unanswered_refuted.
