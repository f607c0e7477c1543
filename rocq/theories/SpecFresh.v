(** Specification vocabulary for resolutions over time: entities change what they publish,
    and the resolver uses what it obtained, now or earlier, through the statement cache. *)
From Coq Require Import QArith.
From Verif Require Import Base GoVal Policy Schema Metadata Chain Resolver SpecResolver TrustMark Refresher FloatTime Cache SpecCache.
Local Open Scope nat_scope.
Local Open Scope string_scope.

(** [net t sub iss s]: at [t] a request for the statement of [iss] about [sub] (for the
    entity configuration if they are the same) can be answered with [s]. *)
Definition answers := time -> string -> string -> stmt -> Prop.

(** All the statements obtained in [h] are answers the network gave, before [now]. *)
Definition truthful (net : answers) (now : time) (h : list use) : Prop :=
  forall u sub iss s t1 t2, In u h -> obtained u sub iss s t1 t2 -> (t1 <= now)%Z /\ exists t, (t <= t1)%Z /\ net t sub iss s.

(** GetEntityConfiguration or FetchEntityStatement, called at [now] after the uses [h] of the
    cache, which was [c0] when the program started, gave [s]. *)
Definition gave (net : answers) (c0 : cache cached) (h : list use) (now : time) (sub iss : string) (s : stmt) : Prop :=
  (forall u, In u h -> proper u) /\ truthful net now h /\
  exists t1 t2 answer b,
    (forall s', answer = Some s' -> exists t, (now <= t <= t1)%Z /\ net t sub iss s') /\
    fst (get_statement now t1 t2 sub iss answer (after_uses h c0)) = Some (s, b).

(** What a resolver that starts at [from] sees: all its statements come from such calls,
    none before [from]; [ok] is what is known of the histories. *)
Definition sees (net : answers) (c0 : cache cached) (ok : list use -> Prop) (from : time) (w : world) : Prop :=
  (forall p a s, w_config w p a = Some s -> exists h now, ok h /\ (from <= now)%Z /\ gave net c0 h now a a s) /\
  (forall p ep sub iss s, w_fetch w p ep sub iss = Some s -> exists h now, ok h /\ (from <= now)%Z /\ gave net c0 h now sub iss s) /\
  (forall p b, (from <= w_now w p b)%Z).

(** What is served since [T] has the property [New]; what was served before expired before
    [from]. *)
Definition changed (net : answers) (T from : time) (sub iss : string) (New : stmt -> Prop) : Prop :=
  (forall t s, (T <= t)%Z -> net t sub iss s -> New s) /\
  (forall t s, (t < T)%Z -> net t sub iss s -> (st_exp s < from)%Z).

(** What was served before [T] has an expiration time. *)
Definition expiring (net : answers) (T : time) (sub iss : string) : Prop :=
  forall t s, (t < T)%Z -> net t sub iss s -> st_exp s <> zero_time.

(** [lag] bounds the time between the two readings of the clock when a statement is stored;
    no time is after 2262, and no statement is stored exactly 1ns after its expiration. *)
Definition timely (lag : Z) (h : list use) : Prop :=
  uses_in_range h /\
  forall u sub iss s t1 t2, In u h -> obtained u sub iss s t1 t2 -> until (st_exp s) t1 <> (-1)%Z /\ (t2 - t1 <= lag)%Z.
