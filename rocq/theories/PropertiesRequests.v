(** The requests a resolution makes. See SpecRequests.v for the vocabulary. *)
From Verif Require Import Base GoVal Policy Schema Metadata Chain Resolver SpecResolver WitnessResolver Requests SpecRequests RequestFacts WitnessRequests.
Local Open Scope nat_scope.
Local Open Scope string_scope.

(** ** C152 Resolution asks only where the entity leads *)

(** The requests are exactly those that are called for. *)
Theorem C152_exact : forall fuel w tas types start t r,
  resolve_tree fuel w tas types start = Done (Ok t) ->
  In r (resolve_requests fuel w tas types start) <-> called_for w tas types start r.
Proof. exact requests_exact. Qed.
Print Assumptions C152_exact.

Example C152_exact_case :
  (exists t, resolve_tree 5 net0 tas0 [] LEAF = Done (Ok t)) /\
  resolve_requests 5 net0 tas0 [] LEAF =
  [ForConfig [] LEAF; ForConfig [0] "https://down.example"; ForConfig [1] IM;
   ForStatement [1] "https://im.example/fetch" LEAF IM; ForConfig [0; 1] TA;
   ForStatement [0; 1] "https://ta.example/fetch" IM TA].
Proof. exact (conj net0_resolves net0_requests). Qed.

(** A resolution that does not come to an end asks for nothing else either. *)
Theorem C152_only : forall fuel w tas types start r,
  In r (resolve_requests fuel w tas types start) -> called_for w tas types start r.
Proof. exact requests_sound. Qed.
Print Assumptions C152_only.

(** The answers to the requests determine the result. *)
Theorem C152_answers : forall fuel w w' tas types start,
  same_but_served w w' ->
  (forall r, In r (resolve_requests fuel w tas types start) -> answered_alike w w' r) ->
  resolve_requests fuel w' tas types start = resolve_requests fuel w tas types start /\
  resolve_chains fuel w' tas types start = resolve_chains fuel w tas types start /\
  resolve_valid fuel w' tas types start = resolve_valid fuel w tas types start.
Proof. exact answers_suffice. Qed.
Print Assumptions C152_answers.

Example C152_answers_case : same_but_served net0 net_more /\
  (forall r, In r (resolve_requests 5 net0 tas0 [] LEAF) -> answered_alike net0 net_more r) /\
  w_config net_more [] "https://other.example" <> w_config net0 [] "https://other.example".
Proof. exact more_alike. Qed.

(** The number of requests is bounded by the number of entities and of superiors they name.
    If each names at most one superior the bound is linear. *)
Theorem C152_bounded_partial : forall U b fuel w tas types start,
  federation_of U b w ->
  List.length (resolve_requests fuel w tas types start) <= 1 + 2 * (List.length U * b ^ List.length U).
Proof. exact requests_bounded. Qed.
Print Assumptions C152_bounded_partial.

Example C152_bounded_case : federation_of [LEAF; "https://down.example"; IM; TA] 2 net0.
Proof. exact net0_federation. Qed.

(** It is not bounded by the number of entities: among 2n+2 entities that each name at most
    two superiors, one that never answers is asked 2^n times. Nothing in this network has a
    valid signature: anyone can serve it. *)
Theorem C152_repeated_refuted : forall n, exists U w tas start,
  List.length U = 2 * n + 2 /\ federation_of U 2 w /\ (forall j ks, w_verify w j ks = false) /\
  (forall p a, w_config w p a = w_config w [] a) /\ (forall p, w_config w p victim = None) /\
  forall fuel, n < fuel ->
    2 ^ n <= List.length (filter (for_config_of victim) (resolve_requests fuel w tas [] start)).
Proof. exact asked_again. Qed.
Print Assumptions C152_repeated_refuted.
