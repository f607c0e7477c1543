(** Witnesses for the requests and the delays of calls that run at the same time. *)
From Coq Require Import QArith Lia.
From Verif Require Import Base GoVal Policy Schema Metadata Chain Resolver SpecResolver TrustMark Refresher FloatTime Cache SpecCache CacheFacts
  Together SpecTogether TogetherFacts SpecBusy BusyFacts LateFacts WitnessResolver WitnessTogether.
Local Open Scope nat_scope.
Local Open Scope string_scope.

Section Runs.
  Variables (grace : Z) (factor : Q) (net : time -> string -> string -> option stmt).
  Lemma together_app : forall acts1 acts2 st st1 os1 st2 os2,
    together grace factor net acts1 st = Some (st1, os1) -> together grace factor net acts2 st1 = Some (st2, os2) ->
    together grace factor net (acts1 ++ acts2) st = Some (st2, os1 ++ os2)%list.
  Proof.
    induction acts1 as [|[t a] acts1 IH]; intros acts2 st st1 os1 st2 os2 H1 H2; cbn [app together] in *.
    - now injection H1 as <- <-.
    - destruct (act_at grace factor net t a st) as [[st' o]|]; [|discriminate].
      destruct (together grace factor net acts1 st') as [[st'' os']|] eqn:T; [|discriminate]. injection H1 as <- <-.
      rewrite (IH acts2 st' st'' os' st2 os2 T H2). now destruct o.
  Qed.
  Lemma sent_app : forall acts1 acts2 st st1 os1, together grace factor net acts1 st = Some (st1, os1) ->
    requests_sent grace factor net (acts1 ++ acts2) st = (requests_sent grace factor net acts1 st ++ requests_sent grace factor net acts2 st1)%list.
  Proof.
    induction acts1 as [|[t a] acts1 IH]; intros acts2 st st1 os1 H1; cbn [app together requests_sent] in *.
    - now injection H1 as <- <-.
    - destruct (act_at grace factor net t a st) as [[st' o]|]; [|discriminate].
      destruct (together grace factor net acts1 st') as [[st'' os']|] eqn:T; [|discriminate]. injection H1 as <- <-.
      rewrite (IH acts2 st' st'' os' T). now rewrite app_assoc.
  Qed.
  Lemma throughout_app P : forall acts1 acts2 st st1 os1, together grace factor net acts1 st = Some (st1, os1) ->
    throughout P grace factor net acts1 st -> throughout P grace factor net acts2 st1 -> throughout P grace factor net (acts1 ++ acts2) st.
  Proof.
    induction acts1 as [|[t a] acts1 IH]; intros acts2 st st1 os1 H1 T1 T2; cbn [app together throughout] in *.
    - now injection H1 as <- <-.
    - destruct (act_at grace factor net t a st) as [[st' o]|]; [|discriminate].
      destruct (together grace factor net acts1 st') as [[st'' os']|] eqn:T; [|discriminate]. injection H1 as <- <-.
      destruct T1 as [P1 T1]. split; eauto.
  Qed.
  Lemma put_mid {A} (l1 l2 : list A) x y : put (List.length l1) x (l1 ++ y :: l2)%list = (l1 ++ x :: l2)%list.
  Proof. induction l1 as [|z l1 IH]; cbn [app put List.length]; [|rewrite IH]; reflexivity. Qed.
  Lemma nth_mid {A} (l1 l2 : list A) y : nth_error (l1 ++ y :: l2)%list (List.length l1) = Some y.
  Proof. induction l1; auto. Qed.

  (** *** Calls that begin at the same time *)
  Variables (now : time) (sub iss : string).
  Definition everyone (from n : nat) : list (time * act) := map (fun i => (now, Go i)) (seq from n).
  Lemma calls_run : forall n c js, together grace factor net (repeat (now, Call sub iss) n) (c, js) = Some ((c, js ++ repeat (Job sub iss Looking) n)%list, []) /\
    requests_sent grace factor net (repeat (now, Call sub iss) n) (c, js) = [].
  Proof.
    induction n as [|n IH]; intros c js; cbn [repeat together requests_sent act_at app].
    - now rewrite app_nil_r.
    - destruct (IH c (js ++ [Job sub iss Looking])%list) as [-> ->]. rewrite <- app_assoc. auto.
  Qed.
  Lemma all_step c p p' : work grace factor net now (Job sub iss p) c = (p', [], c, None) ->
    forall m k, together grace factor net (everyone k m) (c, repeat (Job sub iss p') k ++ repeat (Job sub iss p) m)%list = Some ((c, repeat (Job sub iss p') (k + m)), []) /\
    requests_sent grace factor net (everyone k m) (c, repeat (Job sub iss p') k ++ repeat (Job sub iss p) m)%list =
      match p with Asking _ => repeat (sub, iss) m | _ => [] end.
  Proof.
    intros W. induction m as [|m IH]; intros k.
    - unfold everyone. cbn [seq map together requests_sent repeat]. rewrite app_nil_r, Nat.add_0_r. split; auto. now destruct p.
    - unfold everyone. cbn [seq map together requests_sent repeat act_at snd].
      assert (N : nth_error (repeat (Job sub iss p') k ++ Job sub iss p :: repeat (Job sub iss p) m)%list k = Some (Job sub iss p)).
      { rewrite <- (repeat_length (Job sub iss p') k) at 2. apply nth_mid. }
      assert (P : put k (Job sub iss p') (repeat (Job sub iss p') k ++ Job sub iss p :: repeat (Job sub iss p) m)%list = (repeat (Job sub iss p') (S k) ++ repeat (Job sub iss p) m)%list).
      { rewrite <- (repeat_length (Job sub iss p') k) at 1. rewrite put_mid. cbn [repeat]. rewrite repeat_cons, <- app_assoc. reflexivity. }
      rewrite N. rewrite W. cbn [jb_sub jb_iss]. rewrite P, app_nil_r. destruct (IH (S k)) as [T S]. unfold everyone in T, S. rewrite T, S.
      rewrite Nat.add_succ_r. split; auto. now destruct p.
  Qed.
  Theorem all_ask n c s : entries c = [] -> net now sub iss = Some s ->
    exists acts st os, calls_begun acts = repeat (sub, iss) n /\ (forall t a, In (t, a) acts -> t = now) /\ own_keys acts /\
      together grace factor net acts (c, []) = Some (st, os) /\ requests_sent grace factor net acts (c, []) = repeat (sub, iss) n.
  Proof.
    intros E N. exists (repeat (now, Call sub iss) n ++ everyone 0 n ++ everyone 0 n)%list.
    destruct (calls_run n c []) as [T1 S1]. cbn [app] in T1.
    assert (G : stmt_cache_get now sub iss c = (None, c)).
    { unfold stmt_cache_get. destruct c as [l|l]; cbn [entries] in E; subst l; reflexivity. }
    assert (W1 : work grace factor net now (Job sub iss Looking) c = (Asking false, [], c, None)) by (cbn [work]; now rewrite G).
    assert (W2 : work grace factor net now (Job sub iss (Asking false)) c = (Holding false s, [], c, None)) by (cbn [work]; now rewrite N).
    destruct (all_step c _ _ W1 n 0) as [T2 S2]. destruct (all_step c _ _ W2 n 0) as [T3 S3]. cbn [repeat app Nat.add] in T2, S2, T3, S3.
    pose proof (together_app _ _ _ _ _ _ _ T2 T3) as T23. pose proof (together_app _ _ _ _ _ _ _ T1 T23) as T.
    eexists _, _. split; [|split; [|split; [|split; [exact T|]]]].
    - unfold calls_begun. rewrite !flat_map_app.
      assert (F : forall k m, flat_map (fun x : time * act => match snd x with Call sub iss => [(sub, iss)] | _ => [] end) (everyone k m) = []).
      { intros k m. unfold everyone. induction (seq k m); auto. }
      rewrite !F, !app_nil_r. clear. induction n as [|n IH]; cbn [repeat flat_map snd app]; [|rewrite IH]; auto.
    - intros t a I. apply in_app_iff in I. destruct I as [I|I]; [apply repeat_spec in I; now injection I|].
      apply in_app_iff in I. destruct I as [I|I]; apply in_map_iff in I; destruct I as (i & I & _); now injection I.
    - intros t ss sk v ttl I. exfalso. apply in_app_iff in I. destruct I as [I|I]; [apply repeat_spec in I; discriminate|].
      apply in_app_iff in I. destruct I as [I|I]; apply in_map_iff in I; destruct I as (i & I & _); discriminate.
    - rewrite (sent_app _ _ _ _ _ T1), S1, (sent_app _ _ _ _ _ T2), S2, S3. reflexivity.
  Qed.

  (** *** Calls one after the other while the refreshes are slow *)
  Definition again (k : nat) : list (time * act) := [(now, Call sub iss); (now, Go k); (now, Go (S k)); (now, Go (S k))].
  Fixpoint agains (n k : nat) : list (time * act) := match n with 0 => [] | S n' => (again k ++ agains n' (2 + k))%list end.
  Definition nobody (js : list job) : Prop := forall j, In j js -> ~ waited_for j.
  Lemma one_waited js j js' : nobody js -> nobody js' -> at_most_one waited_for (js ++ j :: js')%list.
  Proof.
    intros N N' i i' x x' E E' W W'.
    assert (G : forall i x, nth_error (js ++ j :: js')%list i = Some x -> waited_for x -> i = List.length js).
    { clear - N N'. intros i x E W. destruct (Nat.lt_trichotomy i (List.length js)) as [L|[L|L]]; auto; exfalso.
      - rewrite nth_error_app1 in E by auto. apply nth_error_In in E. exact (N x E W).
      - rewrite nth_error_app2 in E by lia. destruct (i - List.length js) as [|d] eqn:D; [lia|]. cbn [nth_error] in E. apply nth_error_In in E. exact (N' x E W). }
    rewrite (G i x E W), (G i' x' E' W'). reflexivity.
  Qed.
  Variables (c : cache cached) (s s1 : stmt).
  Hypothesis hit : stmt_cache_get now sub iss c = (Some s, c).
  Hypothesis due : refresh_due grace factor now s = true.
  Hypothesis answer : net now sub iss = Some s1.
  Lemma again_run js : nobody js ->
    together grace factor net (again (List.length js)) (c, js) = Some ((c, js ++ [Job sub iss Over; Job sub iss (Holding true s1)])%list, [Outcome sub iss (Some s)]) /\
    requests_sent grace factor net (again (List.length js)) (c, js) = [(sub, iss)] /\
    throughout (at_most_one waited_for) grace factor net (again (List.length js)) (c, js).
  Proof.
    intros NW. unfold again.
    assert (A1 : act_at grace factor net now (Call sub iss) (c, js) = Some ((c, js ++ [Job sub iss Looking])%list, None)) by reflexivity.
    assert (A2 : act_at grace factor net now (Go (List.length js)) (c, js ++ [Job sub iss Looking])%list =
                 Some ((c, js ++ [Job sub iss Over; Job sub iss (Checking s)])%list, Some (Outcome sub iss (Some s)))).
    { cbn [act_at]. rewrite nth_mid. cbn [work]. rewrite hit. cbn [jb_sub jb_iss]. now rewrite put_mid, <- app_assoc. }
    assert (E : forall y, (js ++ [Job sub iss Over; y] = (js ++ [Job sub iss Over]) ++ [y])%list) by (intros y; now rewrite <- app_assoc).
    assert (L : S (List.length js) = List.length (js ++ [Job sub iss Over])%list) by (rewrite app_length; cbn; lia).
    assert (A3 : act_at grace factor net now (Go (S (List.length js))) (c, js ++ [Job sub iss Over; Job sub iss (Checking s)])%list =
                 Some ((c, js ++ [Job sub iss Over; Job sub iss (Asking true)])%list, None)).
    { cbn [act_at]. rewrite L, !E, nth_mid. cbn [work]. rewrite due. cbn [jb_sub jb_iss]. now rewrite put_mid, app_nil_r. }
    assert (A4 : act_at grace factor net now (Go (S (List.length js))) (c, js ++ [Job sub iss Over; Job sub iss (Asking true)])%list =
                 Some ((c, js ++ [Job sub iss Over; Job sub iss (Holding true s1)])%list, None)).
    { cbn [act_at]. rewrite L, !E, nth_mid. cbn [work]. rewrite answer. cbn [jb_sub jb_iss]. now rewrite put_mid, app_nil_r. }
    assert (N4 : forall p, nth_error (js ++ [Job sub iss Over; Job sub iss p])%list (S (List.length js)) = Some (Job sub iss p)) by (intros p; rewrite L, E; apply nth_mid).
    assert (ND : nobody []) by (intros j []).
    assert (NO : forall p, ~ waited_for (Job sub iss p) -> at_most_one waited_for (js ++ [Job sub iss Over; Job sub iss p])%list).
    { intros p NP. apply one_waited; auto. intros j [<-|[]]; auto. }
    assert (N0 : at_most_one waited_for js).
    { intros i i' x x' X _ W _. exfalso. apply nth_error_In in X. exact (NW x X W). }
    split; [|split].
    - cbn [together]. rewrite A1, A2, A3, A4. reflexivity.
    - cbn [requests_sent]. rewrite A1, A2, A3, A4. cbn [snd]. rewrite nth_mid, !N4. reflexivity.
    - cbn [throughout]. rewrite A1, A2, A3, A4. cbn [snd].
      split; [auto|split; [apply one_waited; auto|split; [apply NO; cbn; tauto|split; [apply NO; cbn; tauto|split; [apply NO; cbn; tauto|auto]]]]].
  Qed.
  Lemma agains_run : forall n js, nobody js -> exists js' os,
    together grace factor net (agains n (List.length js)) (c, js) = Some ((c, js'), os) /\
    requests_sent grace factor net (agains n (List.length js)) (c, js) = repeat (sub, iss) n /\
    throughout (at_most_one waited_for) grace factor net (agains n (List.length js)) (c, js).
  Proof.
    induction n as [|n IH]; intros js NW; cbn [agains].
    - exists js, []. split; [reflexivity|]. split; [reflexivity|]. split; [|exact I]. cbn [snd].
      intros i i' x x' X _ W _. exfalso. apply nth_error_In in X. exact (NW x X W).
    - destruct (again_run js NW) as (T1 & S1 & R1).
      destruct (IH (js ++ [Job sub iss Over; Job sub iss (Holding true s1)])%list) as (js' & os & T2 & S2 & R2).
      { intros j J. apply in_app_iff in J. destruct J as [J|[<-|[<-|[]]]]; [auto|cbn; tauto|cbn; tauto]. }
      assert (L : List.length (js ++ [Job sub iss Over; Job sub iss (Holding true s1)])%list = 2 + List.length js) by (rewrite app_length; cbn; lia).
      rewrite L in T2, S2, R2. eexists _, _. split; [exact (together_app _ _ _ _ _ _ _ T1 T2)|]. split.
      + rewrite (sent_app _ _ _ _ _ T1), S1, S2. reflexivity.
      + exact (throughout_app _ _ _ _ _ _ T1 R1 R2).
  Qed.
  Lemma again_calls k : calls_begun (again k) = [(sub, iss)].
  Proof. reflexivity. Qed.
  Lemma agains_calls : forall n k, calls_begun (agains n k) = repeat (sub, iss) n.
  Proof.
    induction n as [|n IH]; intros k; cbn [agains]; auto. unfold calls_begun in *. rewrite flat_map_app, IH. reflexivity.
  Qed.
  Lemma agains_in : forall n k t a, In (t, a) (agains n k) -> t = now /\ forall ss sk v ttl, a <> Other ss sk v ttl.
  Proof.
    induction n as [|n IH]; intros k t a H; cbn [agains] in H; [destruct H|]. apply in_app_iff in H. destruct H as [H|H]; [|eauto].
    unfold again in H. cbn [In] in H. repeat (destruct H as [H|H]; [injection H as <- <-; split; [auto|discriminate]|]). destruct H.
  Qed.
End Runs.

(** ** A slow refresh *)

Definition always (t : time) (sub iss : string) : option stmt := if (String.eqb sub LEAF && String.eqb iss IM)%bool then Some old_version else None.
Definition first_call : list (time * act) := at_second 1 [ask; Go 0; Go 0; Go 0; Go 0].
Definition first_state : tstate := Eval vm_compute in match together hour (1 # 2)%Q always first_call (Memory [], []) with Some (st, _) => st | None => (Memory [], []) end.

Lemma c158_slow : exists net sub iss s t, (forall t', net t' sub iss = Some s) /\ (st_iat s < t)%Z /\ (t + hour / 2 < st_exp s)%Z /\
  forall n, exists acts st os, in_time acts /\ own_keys acts /\ (forall t' a, In (t', a) acts -> t' = t \/ t' = (t + sec)%Z) /\
    throughout (at_most_one waited_for) hour (1 # 2)%Q net acts (Memory [], []) /\
    together hour (1 # 2)%Q net acts (Memory [], []) = Some (st, os) /\
    calls_begun acts = repeat (sub, iss) (S n) /\ requests_sent hour (1 # 2)%Q net acts (Memory [], []) = repeat (sub, iss) (S n).
Proof.
  exists always, LEAF, IM, old_version, (1 * sec)%Z. split; [intros t'; reflexivity|]. split; [vm_compute; reflexivity|]. split; [vm_compute; reflexivity|].
  intros n.
  assert (T1 : exists os, together hour (1 # 2)%Q always first_call (Memory [], []) = Some (first_state, os)) by (eexists; vm_compute; reflexivity).
  destruct T1 as [os1 T1].
  assert (NB : nobody (snd first_state)).
  { intros j [<-|[]]. vm_compute. tauto. }
  destruct first_state as [c js] eqn:FS.
  destruct (agains_run hour (1 # 2)%Q always (2 * sec)%Z LEAF IM c (stmt_msgpack old_version) old_version) with (n := n) (js := js) as (js' & os & T2 & S2 & R2).
  { injection FS as <- <-. vm_compute. reflexivity. }
  { vm_compute. reflexivity. }
  { reflexivity. }
  { exact NB. }
  exists (first_call ++ agains (2 * sec)%Z LEAF IM n (List.length js))%list. eexists _, _.
  split; [|split; [|split; [|split; [|split; [exact (together_app _ _ _ _ _ _ _ _ _ _ T1 T2)|]]]]].
  - assert (X : forall k, in_time (agains (2 * sec)%Z LEAF IM n k)).
    { clear. intros k. assert (Y : forall l, (forall t a, In (t, a) l -> t = (2 * sec)%Z) -> in_time l).
      { induction l as [|[t a] l IH]; intros H; cbn [in_time]; auto. split; [|apply IH; intros t' a' I; apply (H t' a'); now right].
        intros t' a' I. rewrite (H t a (or_introl eq_refl)), (H t' a' (or_intror I)). lia. }
      apply Y. intros t a I. now apply agains_in in I. }
    assert (Y : forall l l', in_time l' -> (forall t a, In (t, a) l -> t = (1 * sec)%Z) -> (forall t a, In (t, a) l' -> t = (2 * sec)%Z) -> in_time (l ++ l')%list).
    { clear. induction l as [|[t a] l IH]; intros l' H H1 H2; cbn [app in_time]; auto. split; [|apply IH; auto; intros t' a' I; apply (H1 t' a'); now right].
      intros t' a' I. rewrite (H1 t a (or_introl eq_refl)). apply in_app_iff in I. destruct I as [I|I]; [rewrite (H1 t' a' (or_intror I))|rewrite (H2 t' a' I)]; unfold sec; lia. }
    apply Y; auto.
    + intros t a I. unfold first_call, at_second in I. apply in_map_iff in I. destruct I as (b & I & _). now injection I as <- <-.
    + intros t a I. now apply agains_in in I.
  - intros t ss sk v ttl I. exfalso. apply in_app_iff in I. destruct I as [I|I].
    + unfold first_call in I. cbn in I. repeat (destruct I as [I|I]; [discriminate|]). exact I.
    + apply agains_in in I. destruct I as [_ I]. now apply (I ss sk v ttl).
  - intros t a I. apply in_app_iff in I. destruct I as [I|I].
    + left. unfold first_call, at_second in I. apply in_map_iff in I. destruct I as (b & I & _). now injection I as <- <-.
    + right. apply agains_in in I. destruct I as [-> _]. reflexivity.
  - eapply throughout_app; [exact T1| |exact R2]. apply (allb_spec _ (few waitedb)); [intros x; apply few_spec; apply waitedb_spec|]. vm_compute. reflexivity.
  - split.
    + unfold calls_begun. rewrite flat_map_app. fold (calls_begun (agains (2 * sec)%Z LEAF IM n (List.length js))). rewrite agains_calls. reflexivity.
    + rewrite (sent_app _ _ _ _ _ _ _ _ T1), S2. reflexivity.
Qed.

(** ** Cases *)

Definition quiet_calls : list (time * act) :=
  (at_second 10 [ask; ask; Go 1; Go 2; Go 3; Go 4; Call LEAF LEAF; Go 5; Go 5] ++ at_second 2000 [ask; Go 6; Go 7])%list.
Lemma c158_case : exists c js s x, together (100 * sec)%Z (1 # 2)%Q always first_call (Memory [], []) = Some ((c, js), [Outcome LEAF IM (Some s)]) /\
  cached_until c LEAF IM s x /\ own_keys quiet_calls /\ undisturbed c LEAF IM quiet_calls /\
  (forall j, In j js -> jb_sub j = LEAF -> jb_iss j = IM -> jb_at j = Looking \/ jb_at j = Over) /\
  (forall t a, In (t, a) quiet_calls -> still_there c x t /\ (t + 100 * sec < st_exp s)%Z) /\
  calls_begun quiet_calls = [(LEAF, IM); (LEAF, IM); (LEAF, LEAF); (LEAF, IM)] /\
  requests_sent (100 * sec)%Z (1 # 2)%Q always quiet_calls (c, js) = [(LEAF, LEAF)].
Proof.
  exists (fst first_state), (snd first_state), old_version, (Some (3000 * sec)%Z).
  split; [vm_compute; reflexivity|]. split; [vm_compute; reflexivity|]. split.
  { intros now ss sk v ttl I. exfalso. cbn in I. repeat (destruct I as [I|I]; [discriminate|]). exact I. }
  split; [vm_compute; discriminate|]. split.
  { intros j [<-|[]] _ _. now right. }
  split.
  { intros t a I. assert (L : (t <= 2000 * sec)%Z).
    { unfold quiet_calls, at_second in I. apply in_app_iff in I. destruct I as [I|I]; apply in_map_iff in I; destruct I as (b & I & _); injection I as <- <-; unfold sec; lia. }
    split; [unfold still_there; cbn [fst first_state]|unfold old_version, version; cbn [st_exp]]; unfold sec in *; lia. }
  split; vm_compute; reflexivity.
Qed.

Fixpoint promptb (d : Z) (acts : list (time * act)) : bool :=
  match acts with
  | [] => true
  | (t, a) :: acts' =>
      forallb (fun x => match a, snd x with Go i, Go k => negb (Nat.eqb i k) || Z.leb (fst x) (t + d) | _, _ => true end) acts' && promptb d acts'
  end.
Lemma promptb_spec d : forall acts, promptb d acts = true -> prompt d acts.
Proof.
  intros acts H a1 t i a2 t' a3 -> _. induction a1 as [|[t0 a0] a1 IH]; cbn [app promptb] in H; apply andb_prop in H; destruct H as [H1 H2]; auto.
  rewrite forallb_forall in H1. assert (I : In (t', Go i) (a2 ++ (t', Go i) :: a3)%list) by (apply in_app_iff; right; now left).
  specialize (H1 _ I). cbn [fst snd] in H1. rewrite Nat.eqb_refl in H1. cbn [negb orb] in H1. now apply Z.leb_le in H1.
Qed.
Definition late_calls : list (time * act) :=
  (at_second 1 [ask; Go 0] ++ at_second 2 [Go 0] ++ at_second 3 [Go 0] ++ at_second 5 [Go 0] ++ at_second 3001 [ask])%list.
(** Two seconds pass between the reading of the clock and the storing: the statement is
    served a second after its expiration. *)
Lemma c54_late_case : own_keys late_calls /\ in_time (late_calls ++ [(3001 * sec, Go 1)%Z])%list /\ prompt (4 * sec)%Z (late_calls ++ [(3001 * sec, Go 1)%Z])%list /\
  (forall t a sub iss s, In (t, a) (late_calls ++ [(3001 * sec, Go 1)%Z])%list -> replaced t sub iss = Some s ->
     (0 < t)%Z /\ (t + 4 * sec < st_exp s)%Z /\ (st_exp s + 4 * sec < 2 ^ 63)%Z) /\
  exists st os st' s, together hour (1 # 2)%Q replaced late_calls (Memory [], []) = Some (st, os) /\
    act_at hour (1 # 2)%Q replaced (3001 * sec)%Z (Go 1) st = Some (st', Some (Outcome LEAF IM (Some s))) /\ (st_exp s + sec = 3001 * sec)%Z.
Proof.
  split.
  { intros now ss sk v ttl I. exfalso. cbn in I. repeat (destruct I as [I|I]; [discriminate|]). exact I. }
  split; [now apply (in_timeb_spec _ 0%Z)|]. split; [apply promptb_spec; vm_compute; reflexivity|]. split.
  { intros t a sub iss s I. unfold replaced. destruct (String.eqb sub LEAF && String.eqb iss IM)%bool; [|discriminate]. intros [= <-].
    assert (T : t = (1 * sec)%Z \/ t = (2 * sec)%Z \/ t = (3 * sec)%Z \/ t = (5 * sec)%Z \/ t = (3001 * sec)%Z).
    { clear - I. cbn [late_calls at_second map app] in I. cbn [In] in I. repeat (destruct I as [I|I]; [injection I as <- _; tauto|]). destruct I. }
    destruct T as [-> | [-> | [-> | [-> | ->]]]]; vm_compute; auto. }
  do 4 eexists. split; [vm_compute; reflexivity|]. split; [vm_compute; reflexivity|]. vm_compute. reflexivity.
Qed.
