(** Concrete histories for PropertiesFresh.v. *)
From Coq Require Import QArith.
From Verif Require Import Base GoVal Policy Schema Metadata Chain Resolver SpecResolver SpecChain TrustMark Refresher FloatTime Cache SpecCache SpecFresh WitnessResolver.
Local Open Scope nat_scope.
Local Open Scope string_scope.

Definition DOWN := "https://down.example".

(** What leaf, intermediate and anchor publish; [o] is the intermediate's statement about the
    leaf. *)
Definition pub (o : option stmt) (sub iss : string) : option stmt :=
  if (String.eqb sub LEAF && String.eqb iss LEAF)%bool then Some leaf0
  else if (String.eqb sub IM && String.eqb iss IM)%bool then Some im_cfg
  else if (String.eqb sub TA && String.eqb iss TA)%bool then Some ta_cfg
  else if (String.eqb sub LEAF && String.eqb iss IM)%bool then o
  else if (String.eqb sub IM && String.eqb iss TA)%bool then Some (ta_sub None)
  else None.
Lemma pub_cases o sub iss s : pub o sub iss = Some s ->
  (sub = LEAF /\ iss = LEAF /\ s = leaf0) \/ (sub = IM /\ iss = IM /\ s = im_cfg) \/ (sub = TA /\ iss = TA /\ s = ta_cfg) \/
  (sub = LEAF /\ iss = IM /\ o = Some s) \/ (sub = IM /\ iss = TA /\ s = ta_sub None).
Proof.
  unfold pub. intros H.
  repeat match type of H with (if (String.eqb ?a ?b && String.eqb ?c ?d)%bool then _ else _) = _ =>
    destruct (String.eqb_spec a b); cbn [andb] in H; [destruct (String.eqb_spec c d); cbn [andb] in H|] end;
  try discriminate; try (injection H as <-); subst; auto 10; try (exfalso; congruence).
  all: try match goal with E : ?a = ?b |- _ => let X := fresh in assert (X : a <> b) by (vm_compute; discriminate); contradiction end.
  all: match type of H with (if String.eqb ?a ?b then _ else _) = _ => destruct (String.eqb_spec a b); [|discriminate H] end;
    try (injection H as <-); subst; auto 10.
Qed.

Definition fresh_world (o : option stmt) : world :=
  World (fun _ a => pub o a a) (fun _ _ sub iss => pub o sub iss) (fun _ _ => 500%Z) (w_verify net0) (w_host net0).

(** Until 300, [sub] got the statement [s] of [iss]; the rest is always served. *)
Definition until300 (o : option stmt) (sub iss : string) (s : stmt) : answers :=
  fun t sub' iss' s' => pub o sub' iss' = Some s' \/ ((t <= 300)%Z /\ sub' = sub /\ iss' = iss /\ s' = s).
Definition once (sub iss : string) (s : stmt) : list use := [UCall 300 300 301 sub iss (Some s)]%Z.

Lemma once_obtained sub iss s u sub' iss' s' t1 t2 : In u (once sub iss s) -> obtained u sub' iss' s' t1 t2 ->
  sub' = sub /\ iss' = iss /\ s' = s /\ t1 = 300%Z /\ t2 = 301%Z.
Proof. intros [<-|[]] [(now & E)|E]; [|discriminate E]. injection E; intros; subst; auto. Qed.
Lemma once_timely sub iss s : (st_exp s < 5000)%Z -> until (st_exp s) 300%Z <> (-1)%Z -> timely 1%Z (once sub iss s).
Proof.
  intros B U. split; [split|].
  - intros u sub' iss' s' t1 t2 I O. destruct (once_obtained _ _ _ _ _ _ _ _ _ I O) as (_ & _ & -> & -> & ->). lia.
  - intros now ss sk v ttl [E|[]]. discriminate E.
  - intros u sub' iss' s' t1 t2 I O. destruct (once_obtained _ _ _ _ _ _ _ _ _ I O) as (_ & _ & -> & -> & ->). split; [exact U|lia].
Qed.
Lemma once_truthful o sub iss s : truthful (until300 o sub iss s) 500%Z (once sub iss s).
Proof.
  intros u sub' iss' s' t1 t2 I O. destruct (once_obtained _ _ _ _ _ _ _ _ _ I O) as (-> & -> & -> & -> & ->).
  split; [lia|]. exists 300%Z. split; [lia|]. right. repeat split; lia.
Qed.
Lemma once_proper sub iss s u : In u (once sub iss s) -> proper u.
Proof. intros [<-|[]]. exact I. Qed.

(** What is served now is obtained now. *)
Lemma gave_now c0 o sub iss s sub' iss' s' :
  fst (get_statement 500%Z 500%Z 501%Z sub' iss' (Some s') (after_uses (once sub iss s) c0)) = Some (s', false) ->
  pub o sub' iss' = Some s' -> gave (until300 o sub iss s) c0 (once sub iss s) 500%Z sub' iss' s'.
Proof.
  intros G P. split; [apply once_proper|]. split; [apply once_truthful|].
  exists 500%Z, 501%Z, (Some s'), false. split; [|exact G]. intros x [= <-]. exists 500%Z. split; [lia|now left].
Qed.
Lemma gave_cached c0 o sub iss s s' :
  fst (get_statement 500%Z 500%Z 501%Z sub iss None (after_uses (once sub iss s) c0)) = Some (s', true) ->
  gave (until300 o sub iss s) c0 (once sub iss s) 500%Z sub iss s'.
Proof.
  intros G. split; [apply once_proper|]. split; [apply once_truthful|].
  exists 500%Z, 501%Z, None, true. split; [|exact G]. discriminate.
Qed.

(** *** An authority in the hints whose statement about the leaf was in the cache *)
Definition old_down : stmt := mk "kd" DOWN LEAF ["kl"] [] None None [] 400%Z.
Definition net_down : answers := until300 (Some (im_sub LEAF None [])) LEAF DOWN old_down.

Lemma c143_case :
  sees net_down (Memory []) (timely 1%Z) 500%Z (fresh_world (Some (im_sub LEAF None []))) /\
  changed net_down 350%Z (500 - 1)%Z LEAF DOWN (fun _ => False) /\ net_down 300%Z LEAF DOWN old_down /\
  returned (fresh_world (Some (im_sub LEAF None []))) tas0 [] LEAF (chain0 leaf0 None None []).
Proof.
  assert (T : timely 1%Z (once LEAF DOWN old_down)) by (apply once_timely; vm_compute; discriminate || reflexivity).
  split; [|split; [|split]].
  - split; [|split].
    + intros p a s H. exists (once LEAF DOWN old_down), 500%Z. split; [exact T|]. split; [lia|]. cbn [fresh_world w_config] in H.
      apply gave_now; [|exact H].
      destruct (pub_cases _ _ _ _ H) as [(E & F & ->)|[(E & F & ->)|[(E & F & ->)|[(E & F & _)|(E & F & _)]]]]; rewrite E; try (vm_compute; reflexivity); rewrite E in F; discriminate F.
    + intros p ep sub iss s H. exists (once LEAF DOWN old_down), 500%Z. split; [exact T|]. split; [lia|]. cbn [fresh_world w_fetch] in H.
      apply gave_now; [|exact H].
      destruct (pub_cases _ _ _ _ H) as [(-> & -> & ->)|[(-> & -> & ->)|[(-> & -> & ->)|[(-> & -> & [= <-])|(-> & -> & ->)]]]]; vm_compute; reflexivity.
    + intros p b. cbn. lia.
  - split.
    + intros t s L [P|(L' & _)]; [vm_compute in P; discriminate P|lia].
    + intros t s L [P|(_ & _ & _ & ->)]; [vm_compute in P; discriminate P|vm_compute; reflexivity].
  - right. repeat split; lia.
  - exists 5. eexists. split; [right; vm_compute; reflexivity|vm_compute; auto].
Qed.

(** *** Statements that are no longer served *)
Definition last_word (exp : time) : stmt := mk "ki" IM LEAF ["kl"] [] None None [] exp.
Definition net_last (exp : time) : answers := until300 None LEAF IM (last_word exp).

Lemma last_sees c0 exp :
  c0 = Memory [] /\ exp = 1000%Z \/ c0 = Redis [] /\ exp = zero_time ->
  sees (net_last exp) c0 (timely 1%Z) 500%Z (fresh_world (Some (last_word exp))).
Proof.
  intros C0.
  assert (T : timely 1%Z (once LEAF IM (last_word exp))) by (destruct C0 as [(_ & ->)|(_ & ->)]; apply once_timely; vm_compute; discriminate || reflexivity).
  assert (X : forall sub iss s, pub (Some (last_word exp)) sub iss = Some s -> gave (net_last exp) c0 (once LEAF IM (last_word exp)) 500%Z sub iss s).
  { intros sub iss s H. unfold net_last.
    destruct (pub_cases _ _ _ _ H) as [(-> & -> & ->)|[(-> & -> & ->)|[(-> & -> & ->)|[(-> & -> & [= <-])|(-> & -> & ->)]]]].
    all: try (apply gave_now; [destruct C0 as [(-> & ->)|(-> & ->)]; vm_compute; reflexivity|vm_compute; reflexivity]).
    apply gave_cached. destruct C0 as [(-> & ->)|(-> & ->)]; vm_compute; reflexivity. }
  split; [|split].
  - intros p a s H. exists (once LEAF IM (last_word exp)), 500%Z. split; [exact T|]. split; [lia|]. now apply X.
  - intros p ep sub iss s H. exists (once LEAF IM (last_word exp)), 500%Z. split; [exact T|]. split; [lia|]. now apply X.
  - intros p b. cbn. lia.
Qed.

Definition last_chain (exp : time) : chain := [leaf0; last_word exp; ta_sub None; ta_cfg].
Lemma last_returned exp : exp = 1000%Z \/ exp = zero_time -> returned (fresh_world (Some (last_word exp))) tas0 [] LEAF (last_chain exp).
Proof. intros [-> | ->]; exists 5; eexists; (split; [right; vm_compute; reflexivity|vm_compute; auto]). Qed.

(** A statement withdrawn at 350 is used until it expires. *)
Lemma c143_last :
  sees (net_last 1000%Z) (Memory []) (timely 1%Z) 500%Z (fresh_world (Some (last_word 1000%Z))) /\
  (forall t s, (350 <= t)%Z -> ~ net_last 1000%Z t LEAF IM s) /\
  returned (fresh_world (Some (last_word 1000%Z))) tas0 [] LEAF (last_chain 1000%Z).
Proof.
  split; [apply last_sees; left; auto|]. split; [|apply last_returned; auto].
  intros t s L [P|(L' & _)]; [vm_compute in P; discriminate P|lia].
Qed.

(** One without expiration time is kept in redis for ever. *)
Lemma c143_redis : exists (net : answers) lag from w tas types start s r T sub iss x,
  sees net (Redis []) (timely lag) from w /\ returned w tas types start (s :: r) /\ (T <= from)%Z /\
  changed net T (from - lag)%Z sub iss (fun _ => False) /\ In x r /\ st_sub x = sub /\ st_iss x = iss.
Proof.
  exists (net_last zero_time), 1%Z, 500%Z, (fresh_world (Some (last_word zero_time))), tas0, [], LEAF, leaf0, [last_word zero_time; ta_sub None; ta_cfg], 350%Z, LEAF, IM, (last_word zero_time).
  split; [apply last_sees; auto|]. split; [apply (last_returned zero_time); auto|]. split; [lia|]. split; [split|].
  - intros t s L [P|(L' & _)]; [vm_compute in P; discriminate P|lia].
  - intros t s L [P|(_ & _ & _ & ->)]; [vm_compute in P; discriminate P|vm_compute; reflexivity].
  - split; [now left|]. split; reflexivity.
Qed.
