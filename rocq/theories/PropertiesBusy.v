(** C158, C54: requests and delays of calls that run at the same time. *)
From Coq Require Import QArith.
From Verif Require Import Base GoVal Policy Schema Metadata Chain Resolver SpecResolver TrustMark Refresher FloatTime Cache SpecCache CacheFacts
  Together SpecTogether SpecBusy BusyFacts LateFacts WitnessResolver WitnessTogether WitnessBusy.
Local Open Scope nat_scope.
Local Open Scope string_scope.

(** ** C158 A statement is requested once for all the calls that need it *)

(** Under every schedule a statement is requested at most as often as calls ask for it,
    refreshes included. Missing: calls that run at the same time do not share a request
    (C158_refuted, C158_refuted_slow). *)
Theorem C158_each_partial : forall grace factor net c acts sub iss,
  times_in (sub, iss) (requests_sent grace factor net acts (c, [])) <= times_in (sub, iss) (calls_begun acts).
Proof. exact one_each. Qed.
Print Assumptions C158_each_partial.

(** It is not requested at all while it is cached and stays valid for longer than the grace
    period, and no call was waiting for it before. *)
Theorem C158_fresh_partial : forall grace factor net sub iss s x acts c js, (grace < 2 ^ 63 - 1)%Z ->
  cached_until c sub iss s x -> (forall j, In j js -> jb_sub j = sub -> jb_iss j = iss -> jb_at j = Looking \/ jb_at j = Over) ->
  own_keys acts -> undisturbed c sub iss acts ->
  (forall t a, In (t, a) acts -> still_there c x t /\ (t + grace < st_exp s)%Z) ->
  times_in (sub, iss) (requests_sent grace factor net acts (c, js)) = 0.
Proof. exact fresh_none. Qed.
Print Assumptions C158_fresh_partial.
Example C158_case : exists c js s x, together (100 * sec)%Z (1 # 2)%Q always first_call (Memory [], []) = Some ((c, js), [Outcome LEAF IM (Some s)]) /\
  cached_until c LEAF IM s x /\ own_keys quiet_calls /\ undisturbed c LEAF IM quiet_calls /\
  (forall j, In j js -> jb_sub j = LEAF -> jb_iss j = IM -> jb_at j = Looking \/ jb_at j = Over) /\
  (forall t a, In (t, a) quiet_calls -> still_there c x t /\ (t + 100 * sec < st_exp s)%Z) /\
  calls_begun quiet_calls = [(LEAF, IM); (LEAF, IM); (LEAF, LEAF); (LEAF, IM)] /\
  requests_sent (100 * sec)%Z (1 # 2)%Q always quiet_calls (c, js) = [(LEAF, LEAF)].
Proof. exact c158_case. Qed.

(** Any number of calls that begin at the same time may each send a request. *)
Theorem C158_refuted : forall grace factor net now sub iss n c s, entries c = [] -> net now sub iss = Some s ->
  exists acts st os, calls_begun acts = repeat (sub, iss) n /\ (forall t a, In (t, a) acts -> t = now) /\ own_keys acts /\
    together grace factor net acts (c, []) = Some (st, os) /\ requests_sent grace factor net acts (c, []) = repeat (sub, iss) n.
Proof. exact all_ask. Qed.
Print Assumptions C158_refuted.

(** And so does every call of a program that makes one after the other, within a second and
    with the default settings, while a refresh in the background is slow: although the
    statement has just been obtained, does not change and is valid for half an hour. *)
Theorem C158_refuted_slow : exists net sub iss s t, (forall t', net t' sub iss = Some s) /\ (st_iat s < t)%Z /\ (t + hour / 2 < st_exp s)%Z /\
  forall n, exists acts st os, in_time acts /\ own_keys acts /\ (forall t' a, In (t', a) acts -> t' = t \/ t' = (t + sec)%Z) /\
    throughout (at_most_one waited_for) hour (1 # 2)%Q net acts (Memory [], []) /\
    together hour (1 # 2)%Q net acts (Memory [], []) = Some (st, os) /\
    calls_begun acts = repeat (sub, iss) (S n) /\ requests_sent hour (1 # 2)%Q net acts (Memory [], []) = repeat (sub, iss) (S n).
Proof. exact c158_slow. Qed.
Print Assumptions C158_refuted_slow.

(** ** C54 Cached entity statements are never served after their expiration *)

(** When calls run at the same time and less than [d] passes between two steps of one: no
    statement is returned more than [d] (and 2ms, for redis) after its expiration. Missing:
    these delays, and answers that expire within [d] (see C54_refuted_memory,
    C54_refuted_redis). *)
Theorem C54_together_partial : forall grace factor net c acts st os now i st' sub iss s d, entries c = [] -> own_keys acts ->
  in_time (acts ++ [(now, Go i)])%list -> prompt d (acts ++ [(now, Go i)])%list ->
  (forall t a sub iss s, In (t, a) (acts ++ [(now, Go i)])%list -> net t sub iss = Some s -> (0 < t)%Z /\ (t + d < st_exp s)%Z /\ (st_exp s + d < 2 ^ 63)%Z) ->
  together grace factor net acts (c, []) = Some (st, os) -> act_at grace factor net now (Go i) st = Some (st', Some (Outcome sub iss (Some s))) ->
  (now < st_exp s + d + 2 * ms)%Z.
Proof. exact not_late. Qed.
Print Assumptions C54_together_partial.
Example C54_together_case : own_keys late_calls /\ in_time (late_calls ++ [(3001 * sec, Go 1)%Z])%list /\ prompt (4 * sec)%Z (late_calls ++ [(3001 * sec, Go 1)%Z])%list /\
  (forall t a sub iss s, In (t, a) (late_calls ++ [(3001 * sec, Go 1)%Z])%list -> replaced t sub iss = Some s ->
     (0 < t)%Z /\ (t + 4 * sec < st_exp s)%Z /\ (st_exp s + 4 * sec < 2 ^ 63)%Z) /\
  exists st os st' s, together hour (1 # 2)%Q replaced late_calls (Memory [], []) = Some (st, os) /\
    act_at hour (1 # 2)%Q replaced (3001 * sec)%Z (Go 1) st = Some (st', Some (Outcome LEAF IM (Some s))) /\ (st_exp s + sec = 3001 * sec)%Z.
Proof. exact c54_late_case. Qed.
