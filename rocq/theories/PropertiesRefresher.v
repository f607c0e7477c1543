(** Property theorems about trust mark refreshing and entity configurations (C45-C47, C68).
    An execution is any interleaving of calls of TrustMarkJWT, background refreshes, answers
    of the trust mark issuer and passing time. [..._refuted] gives a counterexample to the
    full statement of the property, [..._partial] the version that holds. *)
From Verif Require Import Base GoVal Policy Schema Metadata Chain TrustMark Refresher SpecUnits SpecRefresher RefresherFacts WitnessRefresher.
Local Open Scope string_scope.
Local Open Scope list_scope.

(** ** C45 The refresher only serves live trust marks *)

(** Missing: executions in which something happens between the two writes that store a mark
    and its expiration (C45_refuted). *)
Theorem C45_live_partial : forall exp_of c now tr s i j t a b,
  execution exp_of (fresh c now) tr s -> cf_refresh c = true -> cf_exp c = kept_exp exp_of (cf_jwt c) -> whole_stores tr ->
  tr = a ++ EReturn i j false t :: b ->
  (exists a1 a2 k, a = a1 ++ EJwt k j :: a2 /\ In (ECall i) a1) \/
  (exists t', In (EUntil i (kept_exp exp_of j) t') a /\ (cf_min c < until (kept_exp exp_of j) t')%Z).
Proof. exact served_live. Qed.
Print Assumptions C45_live_partial.

(** The configuration after Verify satisfies the hypothesis on the expiration. *)
Example C45_config : verify_config (fun _ => None) (Config "tm1" "https://iss.example" false "" false 0 0 zero_time zero_time) = Ok cfg_new /\
  verify_config (fun _ => Some (exps "old", "https://iss.example", Some "tm1")) (Config "" "" false "old" true 0 0 zero_time zero_time) = Ok cfg_old.
Proof. exact cfg_case. Qed.

Example C45_case :
  (exists s, execution exps (fresh cfg_new T0) seq_trace s) /\ cf_refresh cfg_new = true /\
  cf_exp cfg_new = kept_exp exps (cf_jwt cfg_new) /\ whole_stores seq_trace /\ whole_attempts seq_trace /\ prompt seq_trace /\
  filter (fun ev => match ev with EReturn _ _ _ _ => true | _ => false end) seq_trace =
    [EReturn 0 "old" false T0; EReturn 1 "old" false (T0 + 100 * a_second)%Z; EReturn 3 "new" false (T0 + 100 * a_second)%Z].
Proof. exact c45_case. Qed.

(** A mark that has expired before the call is served. *)
Theorem C45_refuted : exists exp_of c now tr s a i j t b e,
  execution exp_of (fresh c now) tr s /\ cf_refresh c = true /\ cf_exp c = kept_exp exp_of (cf_jwt c) /\
  (0 < cf_min c)%Z /\ tr = a ++ EReturn i j false t :: b /\
  (forall a1 k a2, a = a1 ++ EJwt k j :: a2 -> ~ In (ECall i) a1) /\
  exp_of j = Some e /\ (e < t)%Z.
Proof. exact c45_witness. Qed.
Print Assumptions C45_refuted.

(** ** C46 The trust mark endpoint is asked at most once a minute *)

(** Missing: goroutines that pass the rate limit together (C46_refuted_race). *)
Theorem C46_attempts_partial : forall exp_of c now tr s a i t b j t' d,
  execution exp_of (fresh c now) tr s -> whole_attempts tr ->
  tr = a ++ EAttempt i t :: b ++ EAttempt j t' :: d -> (a_minute <= t' - t)%Z.
Proof. exact attempts_apart. Qed.
Print Assumptions C46_attempts_partial.

(** Every request belongs to an attempt of its own. *)
Theorem C46_request_of_attempt : forall exp_of c now tr s a i t b,
  execution exp_of (fresh c now) tr s -> tr = a ++ EAsk i t :: b -> exists t0, In (EAttempt i t0) a /\ (t0 <= t)%Z.
Proof. exact ask_after_attempt. Qed.
Print Assumptions C46_request_of_attempt.
Theorem C46_one_request : forall exp_of c now tr s a i t b,
  execution exp_of (fresh c now) tr s -> tr = a ++ EAsk i t :: b -> forall t', ~ In (EAsk i t') b.
Proof. exact ask_once. Qed.
Print Assumptions C46_one_request.

(** Missing: requests that are delayed after the attempt was recorded (C46_refuted_slow). *)
Theorem C46_requests_partial : forall exp_of c now tr s a i t b j t' d,
  execution exp_of (fresh c now) tr s -> whole_attempts tr -> prompt tr ->
  tr = a ++ EAsk i t :: b ++ EAsk j t' :: d -> (a_minute <= t' - t)%Z.
Proof. exact asks_apart. Qed.
Print Assumptions C46_requests_partial.

Example C46_case : (exists s, execution exps (fresh cfg_new T0) seq_trace s) /\ whole_attempts seq_trace /\ prompt seq_trace /\
  2 <= List.length (filter (fun ev => match ev with EAsk _ _ => true | _ => false end) seq_trace).
Proof.
  destruct c45_case as (A & _ & _ & _ & B & C & _). split; [exact A|]. split; [exact B|]. split; [exact C|].
  apply PeanoNat.Nat.leb_le. vm_compute. reflexivity.
Qed.

(** Two concurrent first calls send two requests at once. *)
Theorem C46_refuted_race : exists exp_of c now tr s a i b j t d,
  execution exp_of (fresh c now) tr s /\ prompt tr /\ tr = a ++ EAsk i t :: b ++ EAsk j t :: d.
Proof. exact c46_witness. Qed.
Print Assumptions C46_refuted_race.
Theorem C46_refuted_slow : exists exp_of c now tr s a i b j t d,
  execution exp_of (fresh c now) tr s /\ whole_attempts tr /\ tr = a ++ EAsk i t :: b ++ EAsk j t :: d.
Proof. exact c46_slow. Qed.
Print Assumptions C46_refuted_slow.

(** ** C47 A held trust mark stays in the entity configuration *)

(** Missing: marks without exp claim (C47_refuted), and executions with interrupted stores.
    If the mark held when the call starts, and every mark stored during the call, is live by
    more than the minimum lifetime when the call returns, the call succeeds with one of
    them. *)
Theorem C47_stays_partial : forall exp_of c now tr s a b1 b2 i j err t,
  execution exp_of (fresh c now) tr s -> cf_refresh c = true -> cf_exp c = kept_exp exp_of (cf_jwt c) -> whole_stores tr ->
  tr = a ++ b1 ++ EReturn i j err t :: b2 -> In (ECall i) b1 ->
  (forall x, In x (held c a :: stored b1) -> x <> "" /\ (cf_min c < until (kept_exp exp_of x) t)%Z) ->
  err = false /\ In j (held c a :: stored b1).
Proof. exact held_served. Qed.
Print Assumptions C47_stays_partial.

(** Without refreshing the configured mark is always returned. *)
Theorem C47_no_refresh : forall exp_of c now tr s a i j err t b,
  execution exp_of (fresh c now) tr s -> cf_refresh c = false -> tr = a ++ EReturn i j err t :: b -> j = cf_jwt c /\ err = false.
Proof. exact no_refresh. Qed.
Print Assumptions C47_no_refresh.

Example C47_case : exists a b1 b2 j t, seq_trace = a ++ b1 ++ EReturn 3 j false t :: b2 /\ In (ECall 3) b1 /\
  forall x, In x (held cfg_new a :: stored b1) -> x <> "" /\ (cf_min cfg_new < until (kept_exp exps x) t)%Z.
Proof. exact c47_case. Qed.

(** A mark that never expires is obtained, and the next call fails. *)
Theorem C47_refuted : exists exp_of c now tr s a b1 b2 i j t,
  execution exp_of (fresh c now) tr s /\ cf_refresh c = true /\ cf_exp c = kept_exp exp_of (cf_jwt c) /\ whole_stores tr /\
  tr = a ++ b1 ++ EReturn i j true t :: b2 /\ In (ECall i) b1 /\ held c a = j /\ stored b1 = [] /\ j <> "" /\ exp_of j = None.
Proof. exact c47_witness. Qed.
Print Assumptions C47_refuted.

(** ** C68 Entity configurations are self-issued and live *)

(** Missing: lifetimes over 292 years (C68_refuted). *)
Theorem C68_payload_partial : forall id hints md ks lifetime now marks,
  (lifetime <= 9223372036)%Z ->
  let s := config_payload (new_entity id hints md ks lifetime) now marks in
  st_iss s = id /\ st_sub s = id /\ st_iat s = now /\
  st_exp s = (now + (if Z.leb lifetime 0 then 86400 else lifetime) * 1000000000)%Z /\ (st_iat s < st_exp s)%Z /\
  st_jwks s = ks /\ st_hints s = hints /\ st_metadata s = md /\
  st_marks s = flat_map (fun m => match snd m with Ok j => [(fst m, j)] | _ => [] end) marks.
Proof. exact entity_configuration. Qed.
Print Assumptions C68_payload_partial.

Example C68_case : (3600 <= 9223372036)%Z /\
  st_marks (config_payload (new_entity "e" ["h"] None (Some ["k"]) 3600) T0 [("tm1", Ok "j1"); ("tm2", Err); ("tm3", Ok "j3")]) =
    [("tm1", "j1"); ("tm3", "j3")].
Proof. exact c68_case. Qed.

Theorem C68_refuted : exists id hints md ks lifetime now marks,
  (0 < lifetime)%Z /\ let s := config_payload (new_entity id hints md ks lifetime) now marks in (st_exp s < st_iat s)%Z.
Proof. exact c68_witness. Qed.
Print Assumptions C68_refuted.
