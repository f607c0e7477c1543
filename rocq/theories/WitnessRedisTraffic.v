(** A case for the theorems on the HTTP requests of a resolution with redis. *)
From Coq Require Import QArith Lia.
From Verif Require Import Base BaseFacts GoVal Policy Schema Metadata Chain Resolver SpecResolver WitnessResolver TrustMark Refresher FloatTime Cache
  CacheFacts Requests SpecRequests RequestFacts WitnessRequests Traffic SpecTraffic TrafficFacts WitnessTraffic.
Local Open Scope nat_scope.
Local Open Scope string_scope.

(** The same statement, valid for ten seconds. *)
Definition for_10s (s : stmt) : stmt :=
  Stmt (st_jwt s) (st_iss s) (st_sub s) (st_iat s) (10000 * ms)%Z (st_jwks s) (st_hints s) (st_metadata s)
       (st_policy s) (st_constraints s) (st_crit s) (st_policy_crit s) (st_marks s) (st_mark_issuers s) (st_mark_owners s).
Definition ladder_10s (n : nat) : world :=
  World (fun p a => option_map for_10s (w_config (ladder n) p a)) (fun p ep sub iss => option_map for_10s (w_fetch (ladder n) p ep sub iss))
        (w_now (ladder n)) (w_verify (ladder n)) (w_host (ladder n)).
(** The clock in the course of the calls: 500ns and half a millisecond more with every call. *)
Definition each_half_ms : nat -> time * time * time :=
  fun i => let t := (500 + 500000 * Z.of_nat (Nat.min i 100))%Z in (t, t, t + 1)%Z.


Lemma redis_case :
  within 500%Z (100 * ms)%Z each_half_ms /\ lasting (1000 * ms)%Z 500%Z (100 * ms)%Z (asked_directly (ladder_10s 2)) [] /\
  federation_of (victim :: ladder_ids 2) 2 (ladder_10s 2) /\ same_names (ladder_10s 2) /\
  seen_through (asked_directly (ladder_10s 2)) each_half_ms (ladder_10s 2) 0 (resolve_requests 5 (ladder_10s 2) tas0 [] (rung true 0)) (Redis []) /\
  List.length (filter (gets_answer (asked_directly (ladder_10s 2))) (resolve_requests 5 (ladder_10s 2) tas0 [] (rung true 0))) = 13 /\
  List.length (filter (gets_answer (asked_directly (ladder_10s 2)))
    (sent (1000 * ms)%Z (3 # 4) (asked_directly (ladder_10s 2)) each_half_ms 0 (resolve_requests 5 (ladder_10s 2) tas0 [] (rung true 0)) (Redis []))) = 11.
Proof.
  split. { intros i now t1 t2 E. unfold each_half_ms in E. pose proof (Nat.le_min_r i 100) as M. remember (Nat.min i 100) as k eqn:EK. clear EK. cbv zeta in E. remember (500 + 500000 * Z.of_nat k)%Z as x eqn:EX. remember (x + 1)%Z as y eqn:EY. injection E as <- <- <-. unfold ms. lia. }
  split. { split; [|intros e s []]. intros r s. unfold asked_directly. destruct r; cbn [answer_in w_config w_fetch ladder_10s ladder].
    - destruct (mem _ _); [|discriminate]. intros [= <-]. split; reflexivity.
    - intros [= <-]. split; reflexivity. }
  split. { intros p a ec. cbn [w_config ladder_10s]. destruct (w_config (ladder 2) p a) as [e|] eqn:E; [|discriminate].
    intros [= <-]. exact (ladder_federation 2 p a e E). }
  split. { destruct (ladder_names 2) as (f & g & H). exists f, g. intros p a ec. cbn [w_config ladder_10s].
    destruct (w_config (ladder 2) p a) as [e|] eqn:E; [|discriminate]. intros [= <-]. exact (H p a e E). }
  split; [vm_compute; repeat split|].
  split; vm_compute; reflexivity.
Qed.
