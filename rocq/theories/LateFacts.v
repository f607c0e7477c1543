(** Proofs about how late a cached statement can be served when calls run at the same time. *)
From Coq Require Import QArith Lia.
From Verif Require Import Base GoVal Policy Schema Metadata Chain Resolver TrustMark Refresher FloatTime Cache SpecCache CacheFacts
  Together SpecTogether TogetherFacts SpecBusy.
Local Open Scope nat_scope.
Local Open Scope string_scope.

Lemma together_snoc grace factor net now a : forall acts st st2 os,
  together grace factor net (acts ++ [(now, a)]) st = Some (st2, os) ->
  exists st1 os1 o, together grace factor net acts st = Some (st1, os1) /\ act_at grace factor net now a st1 = Some (st2, o).
Proof.
  induction acts as [|[t b] acts IH]; intros st st2 os H; cbn [app together] in H.
  - destruct (act_at grace factor net now a st) as [[st' o]|] eqn:A; [|discriminate]. injection H as <- _. exists st, [], o. auto.
  - destruct (act_at grace factor net t b st) as [[st' o]|] eqn:A; [|discriminate].
    destruct (together grace factor net (acts ++ [(now, a)]) st') as [[st'' os']|] eqn:T; [|discriminate]. injection H as <- _.
    destruct (IH st' st'' os' T) as (st1 & os1 & o1 & T1 & A1). cbn [together]. rewrite A, T1. eauto.
Qed.

Lemma in_time_snoc acts t a : in_time (acts ++ [(t, a)]) -> in_time acts /\ forall t' a', In (t', a') acts -> (t' <= t)%Z.
Proof.
  induction acts as [|[t0 a0] acts IH]; cbn [app in_time]; intros H; [split; auto; intros t' a' []|].
  destruct H as [L H]. destruct (IH H) as [I1 I2]. split.
  - split; auto. intros t' a' I. apply (L t' a'). apply in_app_iff. now left.
  - intros t' a' [[= <- <-]|I]; [|eauto]. apply (L t a). apply in_app_iff. right. now left.
Qed.
Lemma prompt_snoc d acts x : prompt d (acts ++ [x]) -> prompt d acts.
Proof.
  intros P a1 t i a2 t' a3 E. apply (P a1 t i a2 t' (a3 ++ [x])%list). rewrite E, <- app_assoc. cbn [app]. now rewrite <- app_assoc.
Qed.

Section Late.
  Variables (d : Z) (net : time -> string -> string -> option stmt).
  (** The last step of the goroutine [i] in [acts] was at [t]. *)
  Definition last_step (acts : list (time * act)) (i : nat) (t : time) : Prop :=
    exists a1 a2, acts = (a1 ++ (t, Go i) :: a2)%list /\ forall t'', ~ In (t'', Go i) a2.
  Lemma last_here acts i t : last_step (acts ++ [(t, Go i)]) i t.
  Proof. exists acts, []. split; auto. Qed.
  Lemma last_more acts i t x : (forall t', x <> (t', Go i)) -> last_step acts i t -> last_step (acts ++ [x]) i t.
  Proof.
    intros N (a1 & a2 & -> & H). exists a1, (a2 ++ [x])%list. split; [now rewrite <- app_assoc|].
    intros t'' I. apply in_app_iff in I. destruct I as [I|[I|[]]]; [exact (H t'' I)|exact (N t'' I)].
  Qed.
  Lemma last_prompt acts i t t' : prompt d (acts ++ [(t', Go i)]) -> last_step acts i t -> (t' <= t + d)%Z.
  Proof. intros P (a1 & a2 & -> & H). eapply (P a1 t i a2 t' []); auto. now rewrite <- app_assoc. Qed.
  Lemma last_in acts i t : last_step acts i t -> In (t, Go i) acts.
  Proof. intros (a1 & a2 & -> & _). apply in_app_iff. right. now left. Qed.

  Definition job_ok (acts : list (time * act)) (i : nat) (j : job) : Prop :=
    match jb_at j with
    | Holding b s => exists t, last_step acts i t /\ (0 < t)%Z /\ (t + d < st_exp s)%Z /\ (st_exp s + d < 2 ^ 63)%Z
    | Storing b s ttl => exists t, last_step acts i t /\ (0 < t)%Z /\ (t < st_exp s)%Z /\ (st_exp s + d < 2 ^ 63)%Z /\ ttl = until (st_exp s) t
    | _ => True
    end.
  Definition entry_ok (c : cache cached) (e : entry cached) : Prop :=
    forall sub iss, en_key e = stmt_key sub iss ->
    exists s t1 t2, en_val e = CStmt s /\ exp_ok (is_memory c) t2 (until (st_exp s) t1) e /\ (0 < t1)%Z /\ (t1 <= t2 <= t1 + d)%Z /\
      (t1 < st_exp s)%Z /\ (st_exp s + d < 2 ^ 63)%Z.
  Definition timely (acts : list (time * act)) (st : tstate) : Prop :=
    (forall i j, nth_error (snd st) i = Some j -> job_ok acts i j) /\ (forall e, In e (entries (fst st)) -> entry_ok (fst st) e).

  Lemma job_more acts i j x : (forall t', x <> (t', Go i)) -> job_ok acts i j -> job_ok (acts ++ [x]) i j.
  Proof.
    intros N. unfold job_ok. destruct (jb_at j); auto; intros (t & L & R); exists t; split; auto; now apply last_more.
  Qed.
  Lemma entry_same c c' e : is_memory c' = is_memory c -> entry_ok c e -> entry_ok c' e.
  Proof. unfold entry_ok. intros M H sub iss K. rewrite M. exact (H sub iss K). Qed.

  Lemma act_timely grace factor acts now a st st' o : timely acts st -> own_keys [(now, a)] -> in_time (acts ++ [(now, a)]) -> prompt d (acts ++ [(now, a)]) ->
    (forall sub iss s, net now sub iss = Some s -> (0 < now)%Z /\ (now + d < st_exp s)%Z /\ (st_exp s + d < 2 ^ 63)%Z) ->
    act_at grace factor net now a st = Some (st', o) ->
    timely (acts ++ [(now, a)]) st' /\ (forall sub iss s, o = Some (Outcome sub iss (Some s)) -> (now < st_exp s + d + 2 * ms)%Z).
  Proof.
    destruct st as [c js]. intros [TJ TE] OK IT PR NET A. cbn [fst snd] in *. destruct a as [sub iss|i|ss sk v ttl|which]; cbn [act_at] in A.
    - injection A as <- <-. split; [|discriminate]. split; cbn [fst snd]; auto. intros k j N. apply nth_snoc in N. destruct N as [N|[<-|[]]].
      + apply job_more; [discriminate|auto].
      + exact I.
    - destruct (nth_error js i) as [[sub iss p]|] eqn:NJ; [|discriminate]. pose proof (TJ i _ NJ) as JO. cbn [jb_sub jb_iss] in A.
      assert (G : forall p' new c', job_ok (acts ++ [(now, Go i)]) i (Job sub iss p') ->
         (forall j, In j new -> exists s, jb_at j = Checking s) -> (forall e, In e (entries c') -> entry_ok c' e) ->
         timely (acts ++ [(now, Go i)]) (c', put i (Job sub iss p') js ++ new)%list).
      { intros p' new c' J N E. split; cbn [fst snd]; auto. intros k j H. apply nth_snoc in H. destruct H as [H|H].
        - apply put_nth in H. destruct H as [[-> ->]|[NE H]]; auto. apply job_more; auto. intros t' [= _ E']. now apply NE.
        - destruct (N j H) as [s E']. unfold job_ok. now rewrite E'. }
      destruct p as [|s|back|back s|back s ttl|]; cbn [work] in A.
      + pose proof (stmt_get_snd now sub iss c) as E. pose proof (get_entries now (stmt_key sub iss) c) as GE. rewrite <- E in GE.
        pose proof (get_memory now (stmt_key sub iss) c) as GM. rewrite <- E in GM.
        pose proof (stmt_get_fst now sub iss c) as GF.
        destruct (stmt_cache_get now sub iss c) as [[s|] c']; cbn [fst snd] in *; injection A as <- <-.
        * split; [apply G; [exact I|intros j [<-|[]]; exists s; reflexivity|intros e J; apply (entry_same c); auto]|].
          intros sub' iss' s' [= <- <- <-]. destruct (GF s eq_refl) as (s0 & F & ->). change (st_exp (stmt_msgpack s0)) with (st_exp s0).
          clear - F TE. destruct c as [l|l]; cbn [cache_get entries is_memory fst] in *.
          -- unfold mem_get in F. destruct (find_entry _ l) as [e|] eqn:Fi; [|discriminate]. destruct (expired now e) eqn:X; cbn [fst] in F; [discriminate|].
             injection F as F. apply find_some in Fi. destruct Fi as [I K]. destruct (TE e I sub iss K) as (s1 & t1 & t2 & V & [S EX] & P1 & [P2 P2'] & P3 & P4).
             rewrite F in V. injection V as <-. assert (PT : (0 < until (st_exp s0) t1)%Z) by (unfold until, sat; lia).
             pose proof (until_small s0 t1 t2 P1 P2 ltac:(lia) PT) as U. unfold expired in X. rewrite EX in X.
             destruct (mem_exp_spec t2 (until (st_exp s0) t1)) as [[E' _] | [_ E']]; try lia; auto. rewrite E', U in X.
             apply Z.ltb_ge in X. unfold ms. lia.
          -- unfold red_find in F. destruct (find_entry _ l) as [e|] eqn:Fi; [|discriminate]. destruct (red_expired now e) eqn:X; cbn [option_map] in F; [discriminate|].
             injection F as F. apply find_some in Fi. destruct Fi as [I K]. destruct (TE e I sub iss K) as (s1 & t1 & t2 & V & EX & P1 & [P2 P2'] & P3 & P4).
             rewrite F in V. injection V as <-. assert (PT : (0 < until (st_exp s0) t1)%Z) by (unfold until, sat; lia).
             pose proof (until_small s0 t1 t2 P1 P2 ltac:(lia) PT) as U. cbn [exp_ok is_memory] in EX. specialize (EX PT). rewrite U in EX. unfold red_expired in X. rewrite EX in X.
             unfold red_exp in X. apply Z.ltb_ge in X.
             pose proof (Z.div_mod now ms). pose proof (Z.mod_pos_bound now ms). pose proof (Z.mul_div_le t2 ms).
             pose proof (Z.mul_div_le (st_exp s0 - t1) ms). unfold ms in *.
             destruct (Z.ltb_spec (st_exp s0 - t1) 1000000); lia.
        * split; [|discriminate]. apply G; [exact I|intros j []|intros e J; apply (entry_same c); auto].
      + injection A as <- <-. split; [|discriminate]. apply G; [destruct (refresh_due _ _ _ _); exact I|intros j []|auto].
      + destruct (net now sub iss) as [s|] eqn:N; injection A as <- <-.
        * split; [|discriminate]. apply G; [|intros j []|auto]. exists now. split; [apply last_here|]. exact (NET sub iss s N).
        * split; [|destruct back; discriminate]. apply G; [exact I|intros j []|auto].
      + injection A as <- <-. split; [|discriminate]. apply G; [|intros j []|auto]. destruct JO as (t & L & P1 & P2 & P3).
        exists now. split; [apply last_here|]. pose proof (last_prompt _ _ _ _ PR L). apply last_in in L.
        apply in_time_snoc in IT. destruct IT as [_ IT]. specialize (IT _ _ L). repeat split; auto; lia.
      + destruct JO as (t & L & P1 & P2 & P3 & PU). pose proof (last_prompt _ _ _ _ PR L) as PD. apply last_in in L.
        apply in_time_snoc in IT. destruct IT as [_ IT]. specialize (IT _ _ L).
        injection A as <- <-. split.
        * apply G; [exact I|intros j []|]. intros e J. pose proof (set_memory now (stmt_key sub iss) (CStmt s) ttl c) as M.
          apply set_entries in J. destruct J as [[J _]|(K & V & X)]; [apply (entry_same c); auto|].
          intros sub' iss' K'. exists s, t, now. rewrite M, <- PU. repeat split; auto; lia.
        * intros sub' iss' s'. destruct back; [discriminate|]. intros [= <- <- <-]. unfold ms. lia.
      + injection A as <- <-. split; [|discriminate]. apply G; [exact I|intros j []|auto].
    - injection A as <- <-. split; [|discriminate]. split; cbn [fst snd].
      + intros k j N. apply job_more; [discriminate|auto].
      + intros e J. pose proof (set_memory now (cache_key ss sk) v ttl c) as M.
        apply set_entries in J. destruct J as [[J _]|(K & _)]; [apply (entry_same c); auto|].
        intros sub iss K'. exfalso. rewrite K in K'. destruct (OK now ss sk v ttl (or_introl eq_refl)) as [O1 O2]. revert K'. now apply stmt_keys_apart.
    - injection A as <- <-. split; [|discriminate]. split; cbn [fst snd].
      + intros k j N. apply job_more; [discriminate|auto].
      + intros e J. apply (entry_same c); [now destruct c|]. apply TE. now apply sweep_entries in J.
  Qed.

  Lemma together_timely grace factor c : entries c = [] -> forall acts st os, own_keys acts -> in_time acts -> prompt d acts ->
    (forall t a sub iss s, In (t, a) acts -> net t sub iss = Some s -> (0 < t)%Z /\ (t + d < st_exp s)%Z /\ (st_exp s + d < 2 ^ 63)%Z) ->
    together grace factor net acts (c, []) = Some (st, os) -> timely acts st.
  Proof.
    intros E. induction acts as [|[now a] acts IH] using rev_ind; intros st os OK IT PR NET T.
    - injection T as <- <-. split; cbn [fst snd].
      + intros [|i] j N; discriminate.
      + rewrite E. intros e [].
    - apply together_snoc in T. destruct T as (st1 & os1 & o & T & A).
      assert (T1 : timely acts st1).
      { eapply IH; eauto.
        - intros n ss sk v ttl J. apply (OK n ss sk v ttl). apply in_app_iff. now left.
        - now apply in_time_snoc in IT.
        - now apply prompt_snoc in PR.
        - intros t b sub iss s J. apply (NET t b sub iss s). apply in_app_iff. now left. }
      eapply act_timely; eauto.
      + intros n ss sk v ttl J. apply (OK n ss sk v ttl). apply in_app_iff. now right.
      + intros sub iss s. apply (NET now a sub iss s). apply in_app_iff. right. now left.
  Qed.
End Late.

Theorem not_late grace factor net c acts st os now i st' sub iss s d : entries c = [] -> own_keys acts ->
  in_time (acts ++ [(now, Go i)]) -> prompt d (acts ++ [(now, Go i)]) ->
  (forall t a sub iss s, In (t, a) (acts ++ [(now, Go i)]) -> net t sub iss = Some s -> (0 < t)%Z /\ (t + d < st_exp s)%Z /\ (st_exp s + d < 2 ^ 63)%Z) ->
  together grace factor net acts (c, []) = Some (st, os) -> act_at grace factor net now (Go i) st = Some (st', Some (Outcome sub iss (Some s))) ->
  (now < st_exp s + d + 2 * ms)%Z.
Proof.
  intros E OK IT PR NET T A.
  assert (T1 : timely d acts st).
  { eapply together_timely; eauto.
    - now apply in_time_snoc in IT.
    - now apply prompt_snoc in PR.
    - intros t b sub' iss' s' J. apply (NET t b sub' iss' s'). apply in_app_iff. now left. }
  edestruct (act_timely d net grace factor acts now (Go i) st st' (Some (Outcome sub iss (Some s))) T1) as [_ O]; eauto.
  - intros n ss sk v ttl [J|[]]. discriminate.
  - intros sub' iss' s' N. eapply (NET now (Go i)); eauto. apply in_app_iff. right. now left.
Qed.
