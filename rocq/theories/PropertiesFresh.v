(** Property theorems about resolutions while entities change what they publish (C143). *)
From Coq Require Import QArith.
From Verif Require Import Base GoVal Policy Schema Metadata Chain Resolver SpecResolver TrustMark Refresher FloatTime Cache SpecCache CacheFacts SpecFresh FreshFacts WitnessResolver WitnessFresh.
Local Open Scope nat_scope.
Local Open Scope string_scope.

(** ** C143 Changes take effect at the latest when the statements before them expire *)

(** With the in-memory cache, which keeps neither trees nor chains (C31_memory_partial). From
    [from] on all the statements served before the change at [T] have expired for [lag].
    Missing: redis (C143_refuted_redis), which moreover keeps chains (C31_redis_forever). *)
Theorem C143_memory_partial : forall net lag from w tas types start s r T sub iss (New : stmt -> Prop),
  sees net (Memory []) (timely lag) from w -> returned w tas types start (s :: r) ->
  (T <= from)%Z -> changed net T (from - lag)%Z sub iss New ->
  forall x, In x r -> st_sub x = sub -> st_iss x = iss -> exists s0, New s0 /\ (x = s0 \/ x = stmt_msgpack s0).
Proof. exact memory_changed. Qed.
Print Assumptions C143_memory_partial.

(** In particular a statement that is no longer served is in no chain. *)
Theorem C143_revoked_partial : forall net lag from w tas types start s r T sub iss,
  sees net (Memory []) (timely lag) from w -> returned w tas types start (s :: r) ->
  (T <= from)%Z -> changed net T (from - lag)%Z sub iss (fun _ => False) ->
  forall x, In x r -> ~ (st_sub x = sub /\ st_iss x = iss).
Proof. exact memory_revoked. Qed.
Print Assumptions C143_revoked_partial.

(** The configuration of the entity itself, whose expiration the resolver does not check. *)
Theorem C143_start_partial : forall net lag from w tas types start s r T (New : stmt -> Prop),
  sees net (Memory []) (timely lag) from w -> returned w tas types start (s :: r) ->
  (T <= from)%Z -> changed net T (from - lag)%Z start start New ->
  exists s0, New s0 /\ st_jwt s = st_jwt s0.
Proof. exact memory_start. Qed.
Print Assumptions C143_start_partial.

Theorem C143_gone_partial : forall net lag from w tas types start c T,
  sees net (Memory []) (timely lag) from w -> (T <= from)%Z ->
  changed net T (from - lag)%Z start start (fun _ => False) -> ~ returned w tas types start c.
Proof. exact memory_gone. Qed.
Print Assumptions C143_gone_partial.

(** With either cache for the statements, if the ones before the change have expiration
    times; the first statement is not covered. *)
Theorem C143_expiring_partial : forall net c0 ok from w tas types start s r T sub iss (New : stmt -> Prop),
  entries c0 = [] -> sees net c0 ok from w -> returned w tas types start (s :: r) ->
  changed net T from sub iss New -> expiring net T sub iss ->
  forall x, In x r -> st_sub x = sub -> st_iss x = iss -> exists s0, New s0 /\ (x = s0 \/ x = stmt_msgpack s0).
Proof. exact chain_changed. Qed.
Print Assumptions C143_expiring_partial.

Example C143_case :
  sees net_down (Memory []) (timely 1%Z) 500%Z (fresh_world (Some (im_sub LEAF None []))) /\
  changed net_down 350%Z (500 - 1)%Z LEAF DOWN (fun _ => False) /\ net_down 300%Z LEAF DOWN old_down /\
  returned (fresh_world (Some (im_sub LEAF None []))) tas0 [] LEAF (chain0 leaf0 None None []).
Proof. exact c143_case. Qed.

(** Until then the withdrawn statement is used. *)
Example C143_case_until :
  sees (net_last 1000%Z) (Memory []) (timely 1%Z) 500%Z (fresh_world (Some (last_word 1000%Z))) /\
  (forall t s, (350 <= t)%Z -> ~ net_last 1000%Z t LEAF IM s) /\
  returned (fresh_world (Some (last_word 1000%Z))) tas0 [] LEAF (last_chain 1000%Z).
Proof. exact c143_last. Qed.

Theorem C143_refuted_redis : exists (net : answers) lag from w tas types start s r T sub iss x,
  sees net (Redis []) (timely lag) from w /\ returned w tas types start (s :: r) /\ (T <= from)%Z /\
  changed net T (from - lag)%Z sub iss (fun _ => False) /\ In x r /\ st_sub x = sub /\ st_iss x = iss.
Proof. exact c143_redis. Qed.
Print Assumptions C143_refuted_redis.
