(** How the returned chains depend on the statements that are served and on the time. *)
From Verif Require Import Base GoVal Policy Schema Metadata Chain Resolver SpecResolver SpecExact SpecMonotone WitnessResolver
  MonotoneFacts WitnessMonotone.
Local Open Scope string_scope.

(** ** C145 Failing servers and further constraints only take chains away *)

(** Nor do they make resolution run longer or crash. *)
Theorem C145_chains : forall fuel w w' tas types start cs, restricts w w' ->
  resolve_chains fuel w tas types start = Done (Ok cs) ->
  exists cs', resolve_chains fuel w' tas types start = Done (Ok cs') /\
    forall c', In c' cs' -> exists c, In c cs /\ same_but_constraints c c'.
Proof. exact restricts_done. Qed.
Print Assumptions C145_chains.

Theorem C145_valid : forall fuel w w' tas types start cs, restricts w w' ->
  resolve_valid fuel w tas types start = Done (Ok cs) ->
  exists cs', resolve_valid fuel w' tas types start = Done (Ok cs') /\
    forall c', In c' cs' -> exists c, In c cs /\ same_but_constraints c c' /\
      chain_metadata c' = chain_metadata c /\ expires_at c' = expires_at c.
Proof. exact restricts_valid. Qed.
Print Assumptions C145_valid.

Example C145_case : (forall m, restricts net0 (net_limit m)) /\ restricts (net_limit 1) (net_limit 0) /\
  resolve_valid 5 net0 tas0 [] LEAF = Done (Ok [chain0 leaf0 None None []]) /\
  resolve_valid 5 (net_limit 1) tas0 [] LEAF = Done (Ok [chain0 leaf0 None (max_path 1) []]) /\
  resolve_valid 5 (net_limit 0) tas0 [] LEAF = Done (Ok []) /\
  resolve_chains 5 net0 tas0 [] LEAF = Done (Ok [chain0 leaf0 None None []]).
Proof. exact (conj limit_restricts (conj stricter_restricts limit_case)). Qed.

(** ** C146 A chain is found until the time at which it says it expires *)

(** Full statement: if the network does not change, a chain that is found is found at every
    later time up to its expiration, and not after that. Both halves are false: the entity
    configurations of intermediates are checked and not counted, and the subject's own
    configuration is counted and not checked. *)
Theorem C146_refuted : exists config fetch verify host tas start c (t t' : time),
  resolve_valid 5 (at_time config fetch verify host t) tas [] start = Done (Ok [c]) /\
  (t <= t')%Z /\ (t' < expires_at c)%Z /\
  resolve_valid 5 (at_time config fetch verify host t') tas [] start = Done (Ok []).
Proof. exact until_refuted. Qed.
Print Assumptions C146_refuted.

Theorem C146_after_refuted : exists config fetch verify host tas start c (t : time),
  resolve_valid 5 (at_time config fetch verify host t) tas [] start = Done (Ok [c]) /\ (expires_at c < t)%Z /\ 3 <= List.length c.
Proof. exact after_refuted. Qed.
Print Assumptions C146_after_refuted.

(** It is found at exactly those times at which everything it relies on is valid. *)
Theorem C146_times_partial : forall config fetch verify host t t' tas types start fuel fuel' cs cs' c,
  resolve_valid fuel (at_time config fetch verify host t) tas types start = Done (Ok cs) ->
  resolve_valid fuel' (at_time config fetch verify host t') tas types start = Done (Ok cs') ->
  In c cs -> (In c cs' <-> forall s, relied_on config c s -> valid_at t' s).
Proof. exact valid_at_time. Qed.
Print Assumptions C146_times_partial.

Theorem C146_times_chains_partial : forall config fetch verify host t t' tas types start fuel fuel' cs cs' c,
  resolve_chains fuel (at_time config fetch verify host t) tas types start = Done (Ok cs) ->
  resolve_chains fuel' (at_time config fetch verify host t') tas types start = Done (Ok cs') ->
  In c cs -> (In c cs' <-> forall s, relied_on config c s -> valid_at t' s).
Proof. exact chains_at. Qed.
Print Assumptions C146_times_chains_partial.

(** So it does not disappear in between. *)
Theorem C146_interval_partial : forall config fetch verify host t1 t2 t3 tas types start fuel1 fuel2 fuel3 cs1 cs2 cs3 c,
  (t1 <= t2)%Z -> (t2 <= t3)%Z ->
  resolve_valid fuel1 (at_time config fetch verify host t1) tas types start = Done (Ok cs1) ->
  resolve_valid fuel2 (at_time config fetch verify host t2) tas types start = Done (Ok cs2) ->
  resolve_valid fuel3 (at_time config fetch verify host t3) tas types start = Done (Ok cs3) ->
  In c cs1 -> In c cs3 -> In c cs2.
Proof. exact interval. Qed.
Print Assumptions C146_interval_partial.

Example C146_case :
  resolve_valid 5 (timed leaf_800 im_600 500%Z) tas0 [] LEAF = Done (Ok [timed_chain leaf_800]) /\
  resolve_valid 5 (timed leaf_800 im_600 550%Z) tas0 [] LEAF = Done (Ok [timed_chain leaf_800]) /\
  resolve_valid 5 (timed leaf_800 im_600 600%Z) tas0 [] LEAF = Done (Ok [timed_chain leaf_800]) /\
  resolve_valid 5 (timed leaf_800 im_600 601%Z) tas0 [] LEAF = Done (Ok []) /\
  resolve_chains 5 (timed leaf_800 im_600 500%Z) tas0 [] LEAF = Done (Ok [timed_chain leaf_800]) /\
  resolve_chains 5 (timed leaf_800 im_600 601%Z) tas0 [] LEAF = Done (Ok []) /\
  relied_on (configs leaf_800 im_600) (timed_chain leaf_800) im_600.
Proof. exact timed_case. Qed.

(** ** C147 A chain depends only on the entities it passes *)

(** Whatever all other entities serve or stop serving, as long as resolution ends. *)
Theorem C147_chains : forall fuel fuel' w w' tas types start cs cs' c,
  resolve_chains fuel w tas types start = Done (Ok cs) ->
  resolve_chains fuel' w' tas types start = Done (Ok cs') ->
  same_speakers (start :: map st_iss (tl c)) w w' -> (In c cs <-> In c cs').
Proof. exact chains_speakers. Qed.
Print Assumptions C147_chains.

Theorem C147_valid : forall fuel fuel' w w' tas types start cs cs' c,
  resolve_valid fuel w tas types start = Done (Ok cs) ->
  resolve_valid fuel' w' tas types start = Done (Ok cs') ->
  same_speakers (start :: map st_iss (tl c)) w w' -> (In c cs <-> In c cs').
Proof. exact valid_speakers. Qed.
Print Assumptions C147_valid.

Example C147_case : same_speakers (LEAF :: map st_iss (tl (chain0 leaf0 None None []))) net0 net_up /\
  resolve_valid 5 net_up tas0 [] LEAF = Done (Ok [chain0 leaf0 None None []]) /\
  resolve_chains 5 net_up tas0 [] LEAF = Done (Ok [chain0 leaf0 None None []]) /\
  w_config net0 [] "https://down.example" = None /\ w_config net_up [] "https://down.example" <> None.
Proof. exact (conj up_speakers up_case). Qed.
