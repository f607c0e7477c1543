(** Witnesses for how the returned chains depend on the statements served and on the time. *)
From Verif Require Import Base GoVal Policy Schema Metadata Chain Resolver SpecResolver SpecExact SpecMonotone WitnessResolver.
Local Open Scope string_scope.

(** The trust anchor adds a constraint, with which the chain is still allowed or no longer. *)
Definition net_limit (m : Z) : world := net LEAF leaf0 None (max_path m) [].

Lemma net_restricts co co' : no_weaker co co' -> restricts (net LEAF leaf0 None co []) (net LEAF leaf0 None co' []).
Proof.
  intros N. split; try (intros; reflexivity).
  - intros p a s H. exact H.
  - intros p ep sub iss s'. cbn [w_fetch net tables]. cbn [lookup].
    destruct (String.eqb (fetch_key ep sub) (fetch_key "https://im.example/fetch" (st_iss leaf0))).
    + intros [= <-]. eexists. split; [reflexivity |]. split; [reflexivity |]. split; [| reflexivity].
      intros c H. discriminate.
    + destruct (String.eqb (fetch_key ep sub) (fetch_key "https://ta.example/fetch" IM)); [| discriminate].
      intros [= <-]. eexists. split; [reflexivity |]. split; [reflexivity |]. split; [exact N | reflexivity].
Qed.

Lemma limit_restricts m : restricts net0 (net_limit m).
Proof. apply net_restricts. intros c H. discriminate. Qed.

Lemma stricter_restricts : restricts (net_limit 1) (net_limit 0).
Proof.
  apply net_restricts. intros c [= <-]. eexists. split; [reflexivity |]. split; [| split].
  - intros m [= <-]. exists 0%Z. split; [reflexivity | lia].
  - discriminate.
  - discriminate.
Qed.

Lemma limit_case :
  resolve_valid 5 net0 tas0 [] LEAF = Done (Ok [chain0 leaf0 None None []]) /\
  resolve_valid 5 (net_limit 1) tas0 [] LEAF = Done (Ok [chain0 leaf0 None (max_path 1) []]) /\
  resolve_valid 5 (net_limit 0) tas0 [] LEAF = Done (Ok []) /\
  resolve_chains 5 net0 tas0 [] LEAF = Done (Ok [chain0 leaf0 None None []]).
Proof. repeat split; vm_compute; reflexivity. Qed.

(** The intermediate's own configuration expires at 600, and the leaf's at 800; everything
    else at 1000. *)
Definition leaf_800 : stmt := mk "kl" LEAF LEAF ["kl"] [IM] md_rp_only None [] 800%Z.
Definition leaf_550 : stmt := mk "kl" LEAF LEAF ["kl"] [IM] md_rp_only None [] 550%Z.
Definition im_600 : stmt := mk "ki" IM IM ["ki"] [TA] (md_fetch "https://im.example/fetch") None [] 600%Z.
Definition configs (leaf im : stmt) (a : string) : option stmt := lookup a [(LEAF, leaf); (IM, im); (TA, ta_cfg)].
Definition fetches (ep sub iss : string) : option stmt :=
  lookup (fetch_key ep sub)
    [(fetch_key "https://im.example/fetch" LEAF, im_sub LEAF None []);
     (fetch_key "https://ta.example/fetch" IM, ta_sub None)].
Definition prefixed (jwt : string) (ks : list string) : bool := existsb (fun k => has_prefix k jwt) ks.
Definition timed (leaf im : stmt) (t : time) : world := at_time (configs leaf im) fetches prefixed host_of t.
Definition timed_chain (leaf : stmt) : chain := [leaf; im_sub LEAF None []; ta_sub None; ta_cfg].

Lemma timed_case :
  resolve_valid 5 (timed leaf_800 im_600 500%Z) tas0 [] LEAF = Done (Ok [timed_chain leaf_800]) /\
  resolve_valid 5 (timed leaf_800 im_600 550%Z) tas0 [] LEAF = Done (Ok [timed_chain leaf_800]) /\
  resolve_valid 5 (timed leaf_800 im_600 600%Z) tas0 [] LEAF = Done (Ok [timed_chain leaf_800]) /\
  resolve_valid 5 (timed leaf_800 im_600 601%Z) tas0 [] LEAF = Done (Ok []) /\
  resolve_chains 5 (timed leaf_800 im_600 500%Z) tas0 [] LEAF = Done (Ok [timed_chain leaf_800]) /\
  resolve_chains 5 (timed leaf_800 im_600 601%Z) tas0 [] LEAF = Done (Ok []) /\
  relied_on (configs leaf_800 im_600) (timed_chain leaf_800) im_600.
Proof.
  do 6 (split; [vm_compute; reflexivity |]). exists (im_sub LEAF None []). split; [now left |]. right. reflexivity.
Qed.

(** It is lost before the time it names, and another is found after that. *)
Lemma until_refuted : exists config fetch verify host tas start c (t t' : time),
  resolve_valid 5 (at_time config fetch verify host t) tas [] start = Done (Ok [c]) /\
  (t <= t')%Z /\ (t' < expires_at c)%Z /\
  resolve_valid 5 (at_time config fetch verify host t') tas [] start = Done (Ok []).
Proof.
  exists (configs leaf_800 im_600), fetches, prefixed, host_of, tas0, LEAF, (timed_chain leaf_800), 500%Z, 601%Z.
  split; [vm_compute; reflexivity |]. split; [lia |]. split; [| vm_compute; reflexivity].
  vm_compute. reflexivity.
Qed.

Lemma after_refuted : exists config fetch verify host tas start c (t : time),
  resolve_valid 5 (at_time config fetch verify host t) tas [] start = Done (Ok [c]) /\ (expires_at c < t)%Z /\ 3 <= List.length c.
Proof.
  exists (configs leaf_550 im_600), fetches, prefixed, host_of, tas0, LEAF, (timed_chain leaf_550), 560%Z.
  split; [vm_compute; reflexivity |]. split; [vm_compute; reflexivity |]. cbn. lia.
Qed.

(** The leaf's other superior comes up, and says what it likes. *)
Definition down_cfg : stmt := mk "kd" "https://down.example" "https://down.example" ["kd"] [TA] (md_fetch "https://down.example/fetch") None [] 1000%Z.
Definition net_up : world :=
  tables [(LEAF, leaf0); (IM, im_cfg); (TA, ta_cfg); ("https://down.example", down_cfg)]
         [(fetch_key "https://im.example/fetch" LEAF, im_sub LEAF None []);
          (fetch_key "https://ta.example/fetch" IM, ta_sub None)].

Lemma up_speakers : same_speakers (LEAF :: map st_iss (tl (chain0 leaf0 None None []))) net0 net_up.
Proof.
  split; [| repeat split].
  intros p a [<- | [<- | [<- | [<- | []]]]]; vm_compute; reflexivity.
Qed.

Lemma up_case : resolve_valid 5 net_up tas0 [] LEAF = Done (Ok [chain0 leaf0 None None []]) /\
  resolve_chains 5 net_up tas0 [] LEAF = Done (Ok [chain0 leaf0 None None []]) /\
  w_config net0 [] "https://down.example" = None /\ w_config net_up [] "https://down.example" <> None.
Proof. split; [vm_compute; reflexivity |]. split; [vm_compute; reflexivity |]. split; [reflexivity | discriminate]. Qed.
