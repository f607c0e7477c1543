(** C156, C157: calls and resolutions that run at the same time. *)
From Coq Require Import QArith.
From Verif Require Import Base GoVal Policy Schema Metadata Chain Resolver SpecResolver TrustMark Refresher FloatTime Cache SpecCache CacheFacts
  Requests SpecRequests Traffic SpecTraffic Together SpecTogether TogetherFacts PackFacts WitnessResolver WitnessTogether.
Local Open Scope nat_scope.
Local Open Scope string_scope.

(** ** C156 Resolutions that run at the same time do not affect each other *)

(** Under every schedule, what a call returns was served in answer to the same question. *)
Theorem C156_served : forall grace factor net c acts st os sub iss s, entries c = [] -> own_keys acts ->
  together grace factor net acts (c, []) = Some (st, os) -> In (Outcome sub iss (Some s)) os ->
  exists t a s0, In (t, a) acts /\ net t sub iss = Some s0 /\ same_document s0 s.
Proof. exact served_by_net. Qed.
Print Assumptions C156_served.

(** If the answer does not change meanwhile, every call gets it, and none gets an error
    instead. *)
Theorem C156_calls : forall grace factor net net0 c acts st os sub iss r, entries c = [] -> own_keys acts ->
  (forall t a, In (t, a) acts -> net t sub iss = net0) ->
  together grace factor net acts (c, []) = Some (st, os) -> In (Outcome sub iss r) os ->
  match r with Some s => exists s0, net0 = Some s0 /\ same_document s0 s | None => net0 = None end.
Proof. exact steady_outcomes. Qed.
Print Assumptions C156_calls.

(** A call returns after four steps of its own, whatever the others do. *)
Theorem C156_returns : forall grace factor net acts st st' os i j, together grace factor net acts st = Some (st', os) ->
  nth_error (snd st) i = Some j -> waited_for j -> 4 <= steps_of i acts -> exists r, In (Outcome (jb_sub j) (jb_iss j) r) os.
Proof. exact calls_return4. Qed.
Print Assumptions C156_returns.
Example C156_returns_case : exists st os, together 1%Z (1 # 2)%Q (fun _ => pub0) (round 0 12 300 ++ round 0 12 301 ++ round 0 12 302 ++ round 0 12 303)%Z%list
  (Memory [], map (fun q => Job (fst q) (snd q) Looking) (questions ++ questions)) = Some (st, os) /\
  4 <= steps_of 7 (round 0 12 300 ++ round 0 12 301 ++ round 0 12 302 ++ round 0 12 303)%Z%list.
Proof. exact c156_returns_case. Qed.

(** A resolution all of whose calls are among them finds the chains it finds when it runs
    alone and without a cache. *)
Theorem C156_resolutions : forall grace factor net net0 c acts st os fuel w w0 tas types start,
  entries c = [] -> own_keys acts -> (forall t a sub iss, In (t, a) acts -> net t sub iss = net0 sub iss) ->
  together grace factor net acts (c, []) = Some (st, os) ->
  (forall r, In r (resolve_requests fuel w tas types start) -> In (Outcome (fst (kept_as r)) (snd (kept_as r)) (answer_in w r)) os) ->
  same_but_served w w0 -> (forall r, answer_in w0 r = net0 (fst (kept_as r)) (snd (kept_as r))) ->
  alike_but_cached (resolve_chains fuel w tas types start) (resolve_chains fuel w0 tas types start).
Proof. exact resolutions_together. Qed.
Print Assumptions C156_resolutions.
Example C156_case : own_keys acts0 /\ (exists st, together 1%Z (1 # 2)%Q (fun _ => pub0) acts0 (Memory [], []) = Some (st, outcomes0)) /\
  (forall r, In r (resolve_requests 5 seen0 tas0 [] LEAF) -> In (Outcome (fst (kept_as r)) (snd (kept_as r)) (answer_in seen0 r)) outcomes0) /\
  same_but_served seen0 alone0 /\ (forall r, answer_in alone0 r = pub0 (fst (kept_as r)) (snd (kept_as r))) /\
  (exists c, resolve_chains 5 alone0 tas0 [] LEAF = Done (Ok [c]) /\ List.length c = 4) /\
  In (Outcome LEAF IM (Some (im_sub LEAF None []))) outcomes0.
Proof. exact c156_case. Qed.

(** ** C157 Once a newer statement has been used no older one is used again *)

(** Missing: two answers to the same question are held at the same time (refuted below). *)
Theorem C157_forward_partial : forall grace factor net c acts st os sub iss, entries c = [] -> own_keys acts -> in_time acts -> never_back net sub iss ->
  throughout (at_most_one (holds_answer sub iss)) grace factor net acts (c, []) ->
  together grace factor net acts (c, []) = Some (st, os) -> goes_forward sub iss os.
Proof. exact forward. Qed.
Print Assumptions C157_forward_partial.
Example C157_case : own_keys prompt_calls /\ in_time prompt_calls /\ never_back replaced LEAF IM /\
  throughout (at_most_one (holds_answer LEAF IM)) hour (1 # 2)%Q replaced prompt_calls (Memory [], []) /\
  (exists st, together hour (1 # 2)%Q replaced prompt_calls (Memory [], []) = Some (st, prompt_outcomes)) /\
  map (fun o => option_map st_iat (oc_stmt o)) prompt_outcomes = [Some 0; Some 0; Some 0; Some (1000 * sec)]%Z.
Proof. exact c156_forward_case. Qed.

(** With the default settings, and although the program makes one call after the other: a
    slow refresh in the background puts the statement back that a faster one has replaced. *)
Theorem C157_refuted : exists net acts st os sub iss,
  own_keys acts /\ in_time acts /\ never_back net sub iss /\
  throughout (at_most_one waited_for) hour (1 # 2)%Q net acts (Memory [], []) /\
  together hour (1 # 2)%Q net acts (Memory [], []) = Some (st, os) /\ ~ goes_forward sub iss os.
Proof. exact back_again. Qed.
Print Assumptions C157_refuted.
