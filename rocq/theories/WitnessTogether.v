(** Witnesses for calls that run at the same time. *)
From Coq Require Import QArith Lia.
From Verif Require Import Base GoVal Policy Schema Metadata Chain Resolver SpecResolver TrustMark Refresher FloatTime Cache SpecCache CacheFacts
  Requests SpecRequests Traffic SpecTraffic Together SpecTogether WitnessResolver.
From Verif Require WitnessFresh.
Local Open Scope nat_scope.
Local Open Scope string_scope.

(** ** Conditions that can be computed *)

Definition few (q : job -> bool) (js : list job) : bool := Nat.leb (List.length (filter q js)) 1.
Lemma few_spec (Q : job -> Prop) q js : (forall j, Q j -> q j = true) -> few q js = true -> at_most_one Q js.
Proof.
  intros QQ F. apply Nat.leb_le in F. intros i i' j j' N N' H H'.
  assert (G : forall k k' (l : list job) x x', k < k' -> nth_error l k = Some x -> nth_error l k' = Some x' -> q x = true -> q x' = true -> 2 <= List.length (filter q l)).
  { induction k as [|k IH]; intros [|k'] [|y l] x x' L A B QX QX'; try lia; try discriminate; cbn [nth_error] in A, B; cbn [filter].
    - injection A as ->. rewrite QX. cbn [List.length]. apply nth_error_In in B.
      assert (I : In x' (filter q l)) by now apply filter_In. destruct (filter q l); [destruct I|cbn; lia].
    - pose proof (IH k' l x x' ltac:(lia) A B QX QX'). destruct (q y); cbn [List.length]; lia. }
  destruct (Nat.lt_trichotomy i i') as [L|[E|L]]; auto; exfalso.
  - pose proof (G i i' js j j' L N N' (QQ j H) (QQ j' H')). lia.
  - pose proof (G i' i js j' j L N' N (QQ j' H') (QQ j H)). lia.
Qed.
Fixpoint allb (P : list job -> bool) (grace : Z) (factor : Q) (net : time -> string -> string -> option stmt)
         (acts : list (time * act)) (st : tstate) : bool :=
  P (snd st) &&
  match acts with
  | [] => true
  | (now, a) :: acts' => match act_at grace factor net now a st with Some (st', _) => allb P grace factor net acts' st' | None => true end
  end.
Lemma allb_spec (P : list job -> Prop) p grace factor net : (forall js, p js = true -> P js) ->
  forall acts st, allb p grace factor net acts st = true -> throughout P grace factor net acts st.
Proof.
  intros PP. induction acts as [|[now a] acts IH]; intros st H; cbn [allb throughout] in *; apply andb_prop in H; destruct H as [H1 H2]; split; auto.
  destruct (act_at grace factor net now a st) as [[st' o]|]; auto.
Qed.
Definition holdsb (sub iss : string) (j : job) : bool :=
  String.eqb (jb_sub j) sub && String.eqb (jb_iss j) iss && match jb_at j with Holding _ _ | Storing _ _ _ => true | _ => false end.
Lemma holdsb_spec sub iss j : holds_answer sub iss j -> holdsb sub iss j = true.
Proof. intros (E1 & E2 & H). unfold holdsb. rewrite E1, E2, !String.eqb_refl. destruct (jb_at j); auto. Qed.
Definition waitedb (j : job) : bool :=
  match jb_at j with Looking | Asking false | Holding false _ | Storing false _ _ => true | _ => false end.
Lemma waitedb_spec j : waited_for j -> waitedb j = true.
Proof. unfold waited_for, waitedb. destruct (jb_at j) as [| |[]|[]|[]|]; tauto. Qed.
Fixpoint in_timeb (last : time) (acts : list (time * act)) : bool :=
  match acts with [] => true | (t, _) :: acts' => Z.leb last t && in_timeb t acts' end.
Lemma in_timeb_spec : forall acts last, in_timeb last acts = true -> (forall t a, In (t, a) acts -> (last <= t)%Z) /\ in_time acts.
Proof.
  induction acts as [|[t a] acts IH]; intros last H; cbn [in_timeb in_time] in *; [split; auto; intros t a []|].
  apply andb_prop in H. destruct H as [L H]. apply Z.leb_le in L. destruct (IH t H) as [I1 I2]. split; auto.
  intros t' a' [[= <- <-]|I]; auto. specialize (I1 t' a' I). lia.
Qed.

(** ** Three resolutions at the same time *)

Definition pub0 (sub iss : string) : option stmt := WitnessFresh.pub (Some (im_sub LEAF None [])) sub iss.
Definition questions : list (string * string) :=
  [(LEAF, LEAF); ("https://down.example", "https://down.example"); (IM, IM); (LEAF, IM); (TA, TA); (IM, TA)].
Definition calls : list (time * act) := map (fun q => (300%Z, Call (fst q) (snd q))) questions.
Definition round (from n : nat) (t : time) : list (time * act) := map (fun i => (t, Go i)) (seq from n).
(** Two calls for everything begin together, none finds anything in the cache; later calls
    do. *)
Definition acts0 : list (time * act) :=
  (calls ++ calls ++ round 0 12 300 ++ round 0 12 301 ++ round 0 12 302 ++ round 0 12 303 ++ calls ++ round 12 6 304 ++ round 12 6 305)%Z%list.
Definition outcomes0 : list outcome :=
  Eval vm_compute in match together 1%Z (1 # 2)%Q (fun _ => pub0) acts0 (Memory [], []) with Some (_, os) => os | None => [] end.
Definition seen0 : world :=
  World (fun _ a => pub0 a a) (fun _ _ sub iss => option_map stmt_msgpack (pub0 sub iss)) (fun _ _ => 500%Z) (w_verify net0) (w_host net0).
Definition alone0 : world := World (fun _ a => pub0 a a) (fun _ _ sub iss => pub0 sub iss) (fun _ _ => 500%Z) (w_verify net0) (w_host net0).

Lemma c156_case : own_keys acts0 /\ (exists st, together 1%Z (1 # 2)%Q (fun _ => pub0) acts0 (Memory [], []) = Some (st, outcomes0)) /\
  (forall r, In r (resolve_requests 5 seen0 tas0 [] LEAF) -> In (Outcome (fst (kept_as r)) (snd (kept_as r)) (answer_in seen0 r)) outcomes0) /\
  same_but_served seen0 alone0 /\ (forall r, answer_in alone0 r = pub0 (fst (kept_as r)) (snd (kept_as r))) /\
  (exists c, resolve_chains 5 alone0 tas0 [] LEAF = Done (Ok [c]) /\ List.length c = 4) /\
  In (Outcome LEAF IM (Some (im_sub LEAF None []))) outcomes0.
Proof.
  split.
  { intros now ss sk v ttl I. exfalso. revert I. generalize (@eq_refl _ (existsb (fun x => match snd x with Other _ _ _ _ => true | _ => false end) acts0)).
    generalize (existsb (fun x => match snd x with Other _ _ _ _ => true | _ => false end) acts0) at 1. intros b E I.
    assert (b = true) by (rewrite E; apply existsb_exists; eexists; split; [exact I|reflexivity]). subst b. vm_compute in H. discriminate. }
  split; [eexists; vm_compute; reflexivity|].
  split.
  { assert (E : resolve_requests 5 seen0 tas0 [] LEAF =
      [ForConfig [] LEAF; ForConfig [0] "https://down.example"; ForConfig [1] IM;
       ForStatement [1] "https://im.example/fetch" LEAF IM; ForConfig [0; 1] TA; ForStatement [0; 1] "https://ta.example/fetch" IM TA]) by (vm_compute; reflexivity).
    rewrite E. intros r I. destruct I as [<-|[<-|[<-|[<-|[<-|[<-|[]]]]]]]; vm_compute; repeat (first [left; reflexivity | right]). }
  split; [repeat split|]. split; [intros [p a|p ep sub iss]; reflexivity|].
  split; [eexists; split; [vm_compute; reflexivity|reflexivity]|]. vm_compute. repeat (first [left; reflexivity | right]).
Qed.

(** ** A caller that calls again and again *)

Definition sec : Z := 1000000000%Z.
Definition version (iat exp : Z) : stmt :=
  Stmt "doc" IM LEAF (iat * sec)%Z (exp * sec)%Z (Some ["kl"]) [] None None None [] [] [] [] [].
Definition old_version := version 0 3000.
Definition new_version := version 1000 4000.
(** The intermediate replaces its statement after 1000 seconds. *)
Definition replaced (t : time) (sub iss : string) : option stmt :=
  if (String.eqb sub LEAF && String.eqb iss IM)%bool then Some (if Z.ltb t (1000 * sec) then old_version else new_version) else None.
Lemma replaced_forward : never_back replaced LEAF IM.
Proof.
  intros t t' s s' L. unfold replaced. rewrite !String.eqb_refl. cbn [andb]. intros [= <-] [= <-].
  change (1000 * sec)%Z with 1000000000000%Z; destruct (Z.ltb_spec t 1000000000000), (Z.ltb_spec t' 1000000000000); unfold old_version, new_version, version; cbn [st_iat]; unfold sec in *; lia.
Qed.
Definition at_second (t : Z) (l : list act) : list (time * act) := map (fun a => (t * sec, a)%Z) l.
Definition ask := Call LEAF IM.
(** The second call starts a refresh, which is slow; the third call starts one that is
    fast. *)
Definition slow_refresh : list (time * act) :=
  (at_second 1 [ask; Go 0; Go 0; Go 0; Go 0] ++ at_second 900 [ask; Go 1; Go 2; Go 2] ++ at_second 1100 [ask; Go 3; Go 4; Go 4; Go 4; Go 4] ++
   at_second 1200 [ask; Go 5; Go 6] ++ at_second 1201 [Go 2; Go 2] ++ at_second 1202 [ask; Go 7])%list.
Definition hour : Z := (3600 * sec)%Z.
Definition slow_outcomes : list outcome :=
  Eval vm_compute in match together hour (1 # 2)%Q replaced slow_refresh (Memory [], []) with Some (_, os) => os | None => [] end.

Lemma back_again : exists net acts st os sub iss,
  own_keys acts /\ in_time acts /\ never_back net sub iss /\
  throughout (at_most_one waited_for) hour (1 # 2)%Q net acts (Memory [], []) /\
  together hour (1 # 2)%Q net acts (Memory [], []) = Some (st, os) /\ ~ goes_forward sub iss os.
Proof.
  exists replaced, slow_refresh.
  assert (R : exists st, together hour (1 # 2)%Q replaced slow_refresh (Memory [], []) = Some (st, slow_outcomes)) by (eexists; vm_compute; reflexivity).
  destruct R as [st R]. exists st, slow_outcomes, LEAF, IM.
  split.
  { intros now ss sk v ttl I. exfalso. cbn in I. repeat (destruct I as [I|I]; [discriminate|]). exact I. }
  split; [now apply (in_timeb_spec slow_refresh 0%Z)|]. split; [exact replaced_forward|].
  split.
  { apply (allb_spec _ (few waitedb)); [intros js; apply few_spec; apply waitedb_spec|]. vm_compute. reflexivity. }
  split; [exact R|]. intros F.
  specialize (F (firstn 3 slow_outcomes) (stmt_msgpack new_version) [] (stmt_msgpack old_version) [] eq_refl).
  vm_compute in F. now apply F.
Qed.

(** Without the slow refresh. *)
Definition prompt_calls : list (time * act) :=
  (at_second 1 [ask; Go 0; Go 0; Go 0; Go 0] ++ at_second 900 [ask; Go 1; Go 2; Go 2; Go 2; Go 2] ++ at_second 1100 [ask; Go 3; Go 4; Go 4; Go 4; Go 4] ++
   at_second 1200 [ask; Go 5; Go 6])%list.
Definition prompt_outcomes : list outcome :=
  Eval vm_compute in match together hour (1 # 2)%Q replaced prompt_calls (Memory [], []) with Some (_, os) => os | None => [] end.
Lemma c156_forward_case : own_keys prompt_calls /\ in_time prompt_calls /\ never_back replaced LEAF IM /\
  throughout (at_most_one (holds_answer LEAF IM)) hour (1 # 2)%Q replaced prompt_calls (Memory [], []) /\
  (exists st, together hour (1 # 2)%Q replaced prompt_calls (Memory [], []) = Some (st, prompt_outcomes)) /\
  map (fun o => option_map st_iat (oc_stmt o)) prompt_outcomes = [Some 0; Some 0; Some 0; Some (1000 * sec)]%Z.
Proof.
  split.
  { intros now ss sk v ttl I. exfalso. cbn in I. repeat (destruct I as [I|I]; [discriminate|]). exact I. }
  split; [now apply (in_timeb_spec prompt_calls 0%Z)|]. split; [exact replaced_forward|].
  split.
  { apply (allb_spec _ (few (holdsb LEAF IM))); [intros js; apply few_spec; apply holdsb_spec|]. vm_compute. reflexivity. }
  split; [eexists; vm_compute; reflexivity|]. vm_compute. reflexivity.
Qed.

Lemma c156_returns_case : exists st os, together 1%Z (1 # 2)%Q (fun _ => pub0) (round 0 12 300 ++ round 0 12 301 ++ round 0 12 302 ++ round 0 12 303)%Z%list
  (Memory [], map (fun q => Job (fst q) (snd q) Looking) (questions ++ questions)) = Some (st, os) /\
  4 <= steps_of 7 (round 0 12 300 ++ round 0 12 301 ++ round 0 12 302 ++ round 0 12 303)%Z%list.
Proof. eexists _, _. split; [vm_compute; reflexivity|]. vm_compute. repeat constructor. Qed.
