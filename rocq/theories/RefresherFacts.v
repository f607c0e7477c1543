(** Proofs about trust mark refreshing. *)
From Verif Require Import Base BaseFacts GoVal Policy Schema Metadata Chain TrustMark Refresher SpecRefresher.
Local Open Scope string_scope.
Local Open Scope list_scope.

Section Machine.
Variable exp_of : string -> option time.
Notation exec := (execution exp_of).
Notation kept := (kept_exp exp_of).
Notation mstep := (machine_step exp_of).

Lemma update_same {A} (l : list A) : forall i x y, nth_error l i = Some y -> nth_error (update i x l) i = Some x.
Proof. induction l as [|a l IH]; intros [|i] x y H; try discriminate; [reflexivity|]. cbn. eapply IH; exact H. Qed.
Lemma update_other {A} (l : list A) : forall i k x, i <> k -> nth_error (update i x l) k = nth_error l k.
Proof. induction l as [|a l IH]; intros [|i] [|k] x H; try reflexivity; [congruence|]. cbn. apply IH. congruence. Qed.
Lemma update_length {A} (l : list A) : forall i x, List.length (update i x l) = List.length l.
Proof. induction l as [|a l IH]; intros [|i] x; cbn; auto. Qed.

(** Every step appends at most one event. *)
Inductive effect (s : machine) : choice -> machine -> list event -> Prop :=
| ef_tick d : (0 <= d)%Z -> effect s (Tick d) (Machine (m_cfg s) (m_now s + d)%Z (m_threads s)) []
| ef_call : effect s Call (Machine (m_cfg s) (m_now s) (m_threads s ++ [PStart])) [ECall (List.length (m_threads s))]
| ef_run i ans p c p' new ev : nth_error (m_threads s) i = Some p ->
    thread_step exp_of (m_cfg s) (m_now s) i p ans = Some (c, p', new, ev) ->
    effect s (Run i ans) (Machine c (m_now s) (update i p' (m_threads s) ++ new)) [ev].
Lemma step_effect s ch s2 evs : mstep s ch = Some (s2, evs) -> effect s ch s2 evs.
Proof.
  destruct ch as [d| |i ans]; cbn [machine_step].
  - destruct (Z.ltb_spec d 0); [discriminate|]. intros [= <- <-]. now constructor.
  - intros [= <- <-]. constructor.
  - destruct (nth_error (m_threads s) i) as [p|] eqn:E; [|discriminate].
    destruct (thread_step _ _ _ _ _ _) as [[[[c p'] new] ev]|] eqn:ET; [|discriminate]. intros [= <- <-]. econstructor; eauto.
Qed.

(** The state in which an event of the trace happened. *)
Lemma exec_split s tr s' : exec s tr s' -> forall a ev b, tr = a ++ ev :: b ->
  exists s1 ch s2, exec s a s1 /\ mstep s1 ch = Some (s2, [ev]).
Proof.
  induction 1 as [|tr s1 ch s2 evs HE IH HS]; intros a ev b E; [now destruct a|].
  pose proof (step_effect _ _ _ _ HS) as EF.
  assert (K : evs = [] \/ exists x, evs = [x]) by (inversion EF; eauto).
  destruct K as [->|(x & ->)].
  - rewrite app_nil_r in E. now apply (IH a ev b).
  - destruct b as [|y b] using rev_ind.
    + apply app_inj_tail in E. destruct E as (-> & ->). exists s1, ch, s2. auto.
    + clear IHb. rewrite app_comm_cons, app_assoc in E. apply app_inj_tail in E. destruct E as (E & _). eapply IH; exact E.
Qed.

Lemma whole_stores_prefix a b : whole_stores (a ++ b) -> whole_stores a.
Proof.
  intros H x i j y E. destruct (H x i j (y ++ b)) as [K|(e & b' & K)].
  - rewrite E, <- app_assoc. reflexivity.
  - apply app_eq_nil in K. now left.
  - destruct y as [|z y]; [now left|]. injection K as -> _. right. eauto.
Qed.
Lemma whole_stores_next a i j ev : whole_stores ((a ++ [EJwt i j]) ++ [ev]) -> exists e, ev = EExp i e.
Proof. intros H. rewrite <- app_assoc in H. destruct (H a i j [ev] eq_refl) as [K|(e & b' & K)]; [discriminate|]. injection K as -> _. eauto. Qed.
Lemma whole_attempts_prefix a b : whole_attempts (a ++ b) -> whole_attempts a.
Proof.
  intros H x i j y E. destruct (H x i j (y ++ b)) as [K|(e & b' & K)].
  - rewrite E, <- app_assoc. reflexivity.
  - apply app_eq_nil in K. now left.
  - destruct y as [|z y]; [now left|]. injection K as -> _. right. eauto.
Qed.
Lemma whole_attempts_next a i j ev : whole_attempts ((a ++ [EPass i j]) ++ [ev]) -> exists e, ev = EAttempt i e.
Proof. intros H. rewrite <- app_assoc in H. destruct (H a i j [ev] eq_refl) as [K|(e & b' & K)]; [discriminate|]. injection K as -> _. eauto. Qed.

(** Goroutines after a step: the one that ran, old ones, and new ones. *)
Lemma threads_after (l : list pc) i p' new k q : nth_error (update i p' l ++ new) k = Some q ->
  i < List.length l ->
  (k = i /\ q = p') \/ (k <> i /\ nth_error l k = Some q) \/ (List.length l <= k /\ In q new).
Proof.
  intros H Hi. destruct (Nat.lt_ge_cases k (List.length l)) as [L|L].
  - rewrite nth_error_app1 in H by (rewrite update_length; auto). destruct (Nat.eq_dec i k) as [->|N].
    + destruct (nth_error l k) as [y|] eqn:E; [|apply nth_error_None in E; lia].
      rewrite (update_same _ _ _ _ E) in H. injection H as <-. auto.
    + rewrite update_other in H by auto. right. left. split; [intros ->; now apply N|auto].
  - right. right. split; auto. rewrite nth_error_app2 in H by (rewrite update_length; auto). eapply nth_error_In; exact H.
Qed.
Lemma nth_lt {A} (l : list A) i x : nth_error l i = Some x -> i < List.length l.
Proof. intros H. apply nth_error_Some. congruence. Qed.

(** The configuration is constant but for the mark. *)
Definition same_settings (c c' : config) : Prop :=
  cf_refresh c' = cf_refresh c /\ cf_min c' = cf_min c /\ cf_grace c' = cf_grace c /\ cf_type c' = cf_type c.
Lemma step_settings c now i p ans c' p' new ev : thread_step exp_of c now i p ans = Some (c', p', new, ev) -> same_settings c c'.
Proof.
  intros H. destruct p; cbn [thread_step] in H; try discriminate; try (injection H as <- <- <- <-; repeat split).
  destruct (Z.ltb _ minute); injection H as <- <- <- <-; repeat split.
Qed.
Lemma exec_settings s tr s' : exec s tr s' -> same_settings (m_cfg s) (m_cfg s').
Proof.
  induction 1 as [|tr s1 ch s2 evs HE IH HS]; [repeat split|].
  apply step_effect in HS. destruct HS as [d Hd| |i ans p c p' new ev EN ET]; auto.
  apply step_settings in ET. cbn. unfold same_settings in *. intuition congruence.
Qed.

(** Time does not go backwards. *)
Lemma step_now s ch s2 evs : effect s ch s2 evs -> (m_now s <= m_now s2)%Z.
Proof. intros [d Hd| |i ans p c p' new ev EN ET]; cbn; lia. Qed.
Lemma exec_now s tr s' : exec s tr s' -> (m_now s <= m_now s')%Z.
Proof. induction 1 as [|tr s1 ch s2 evs HE IH HS]; [lia|]. apply step_effect, step_now in HS. lia. Qed.

(** *** Consistency of mark and expiration *)
Record consistent (tr : list event) (s : machine) : Prop := {
  co_mid : forall i bg j, nth_error (m_threads s) i = Some (RExp bg j) ->
    cf_jwt (m_cfg s) = j /\ exists tr', tr = tr' ++ [EJwt i j];
  co_exp : (exists i bg j, nth_error (m_threads s) i = Some (RExp bg j)) \/
    cf_exp (m_cfg s) = kept (cf_jwt (m_cfg s)) }.

Lemma not_exp_event c now i p ans c' p' new ev k e :
  thread_step exp_of c now i p ans = Some (c', p', new, ev) -> ev = EExp k e -> k = i /\ exists bg j, p = RExp bg j /\ e = kept j.
Proof.
  intros H ->. destruct p; cbn [thread_step] in H; try discriminate;
    try (destruct (Z.ltb _ _); discriminate). injection H as <- <- <- <- <-. split; eauto.
Qed.

Lemma consistent_step tr s ch s2 evs : consistent tr s -> effect s ch s2 evs -> whole_stores (tr ++ evs) -> consistent (tr ++ evs) s2.
Proof.
  intros [CM CE] EF W. destruct EF as [d Hd| |i ans p c p' new ev EN ET].
  - rewrite app_nil_r. split; cbn; auto.
  - assert (NM : forall i bg j, nth_error (m_threads s) i <> Some (RExp bg j)).
    { intros i bg j H. destruct (CM _ _ _ H) as (_ & tr' & ->). apply whole_stores_next in W. destruct W as (e & W). discriminate. }
    assert (NM' : forall i bg j, nth_error (m_threads s ++ [PStart]) i <> Some (RExp bg j)).
    { intros i bg j H. destruct (Nat.lt_ge_cases i (List.length (m_threads s))) as [L|L].
      - rewrite nth_error_app1 in H by auto. now apply NM in H.
      - rewrite nth_error_app2 in H by auto. destruct (i - List.length (m_threads s)) as [|[|]]; discriminate. }
    split; cbn.
    + intros i bg j H. now apply NM' in H.
    + right. destruct CE as [(i & bg & j & H)|H]; [now apply NM in H|auto].
  - pose proof (nth_lt _ _ _ EN) as Li.
    assert (MID : (exists k bg j, nth_error (m_threads s) k = Some (RExp bg j)) -> exists bg j, p = RExp bg j /\ cf_jwt (m_cfg s) = j).
    { intros (k & bg & j & H). destruct (CM _ _ _ H) as (EJ & tr' & ->). apply whole_stores_next in W. destruct W as (e & W).
      destruct (not_exp_event _ _ _ _ _ _ _ _ _ _ _ ET W) as (-> & bg' & j' & -> & _). rewrite EN in H. injection H as -> ->. eauto. }
    assert (OTHER : forall k bg j, k <> i -> nth_error (m_threads s) k <> Some (RExp bg j)).
    { intros k bg j N H. destruct (CM _ _ _ H) as (EJ & tr' & ->). apply whole_stores_next in W. destruct W as (e & W).
      destruct (not_exp_event _ _ _ _ _ _ _ _ _ _ _ ET W) as (-> & _). now apply N. }
    assert (NEW : forall q, In q new -> q = RCheck true).
    { destruct p; cbn [thread_step] in ET; try discriminate; try (injection ET as <- <- <- <-; intros q []).
      - injection ET as <- <- <- <-. destruct (Z.ltb _ _); [|intros q []]. intros q [<-|[]]. reflexivity.
      - destruct (Z.ltb _ _); injection ET as <- <- <- <-; intros q []. }
    split; cbn.
    + intros k bg j H. apply threads_after in H; auto. destruct H as [(-> & <-)|[(N & H)|(_ & H)]].
      * destruct p; cbn [thread_step] in ET; try discriminate; try (injection ET as <- E <- <-; discriminate).
        -- injection ET as <- E <- <-. destruct (cf_refresh _); discriminate.
        -- injection ET as <- E <- <-. destruct (String.eqb _ _); discriminate.
        -- injection ET as <- E <- <-. destruct (Z.ltb _ _); discriminate.
        -- destruct (Z.ltb _ _); injection ET as <- E <- <-; destruct bg0; discriminate.
        -- injection ET as <- E <- <-. destruct ans; [discriminate|]. destruct bg0; discriminate.
        -- injection ET as <- <- <- <- <-. split; [reflexivity|eauto].
        -- injection ET as <- E <- <-. destruct bg0; discriminate.
      * exfalso. eapply OTHER; eauto.
      * apply NEW in H. discriminate.
    + destruct CE as [CE|CE].
      * destruct (MID CE) as (bg & j & -> & EJ). cbn [thread_step] in ET. injection ET as <- <- <- <-. right. cbn. now rewrite EJ.
      * destruct p; cbn [thread_step] in ET; try discriminate; try (injection ET as <- <- <- <-; right; cbn; exact CE).
        -- destruct (Z.ltb _ _); injection ET as <- <- <- <-; right; exact CE.
        -- injection ET as <- <- <- <-. left. exists i, bg, j. cbn.
           rewrite nth_error_app1 by (rewrite update_length; auto). eapply update_same; exact EN.
        -- injection ET as <- <- <- <-. right. cbn. destruct (CM _ _ _ EN) as (-> & _). reflexivity.
Qed.

Lemma exec_consistent c now tr s : exec (fresh c now) tr s -> cf_exp c = kept (cf_jwt c) -> whole_stores tr -> consistent tr s.
Proof.
  intros H E. induction H as [|tr s1 ch s2 evs HE IH HS]; intros W.
  - split; cbn; [intros [|i] bg j; discriminate|auto].
  - apply step_effect in HS. eapply consistent_step; eauto. apply IH. eapply whole_stores_prefix; exact W.
Qed.

(** *** C45 *)
Definition foreground (p : pc) : Prop :=
  match p with RCheck true | RTried true | RAsk true | RJwt true _ | RExp true _ | PDone => False | _ => True end.
Definition served (c : config) (tr : list event) (i : nat) : Prop :=
  (exists a b k, tr = a ++ EJwt k (cf_jwt c) :: b /\ In (ECall i) a) \/
  (exists e t, In (EUntil i e t) tr /\ e = kept (cf_jwt c) /\ (cf_min c < until e t)%Z).

Record serving (tr : list event) (s : machine) : Prop := {
  sv_born : forall i p, nth_error (m_threads s) i = Some p -> foreground p -> In (ECall i) tr;
  sv_ok : forall i p, nth_error (m_threads s) i = Some p -> p = PGrace \/ p = PReturn false -> served (m_cfg s) tr i }.

Lemma served_app c tr i ev : served c tr i -> served c (tr ++ [ev]) i.
Proof.
  intros [(a & b & k & -> & H)|(e & t & H & R)]; [left|right].
  - exists a, (b ++ [ev]), k. rewrite <- app_assoc. auto.
  - exists e, t. split; auto. apply in_or_app. auto.
Qed.
Lemma served_settings c c' tr i : same_settings c c' -> cf_jwt c' = cf_jwt c -> served c tr i -> served c' tr i.
Proof. intros (_ & M & _) J. unfold served. now rewrite M, J. Qed.

Lemma serving_step tr s ch s2 evs : consistent tr s -> serving tr s -> cf_refresh (m_cfg s) = true ->
  effect s ch s2 evs -> whole_stores (tr ++ evs) -> serving (tr ++ evs) s2.
Proof.
  intros CO [SB SO] RF EF W. destruct EF as [d Hd| |i ans p c p' new ev EN ET].
  - rewrite app_nil_r. split; cbn; auto.
  - split; cbn.
    + intros i p H F. destruct (Nat.lt_ge_cases i (List.length (m_threads s))) as [L|L].
      * rewrite nth_error_app1 in H by auto. apply in_or_app. left. eauto.
      * rewrite nth_error_app2 in H by auto. apply in_or_app. right. left. f_equal.
        destruct (i - List.length (m_threads s)) as [|[|]] eqn:E; try discriminate. lia.
    + intros i p H F. destruct (Nat.lt_ge_cases i (List.length (m_threads s))) as [L|L].
      * rewrite nth_error_app1 in H by auto. apply served_app. eauto.
      * rewrite nth_error_app2 in H by auto. destruct (i - List.length (m_threads s)) as [|[|]]; try discriminate.
        injection H as <-. destruct F; discriminate.
  - pose proof (nth_lt _ _ _ EN) as Li. pose proof (step_settings _ _ _ _ _ _ _ _ _ ET) as SS.
    assert (NEW : forall q, In q new -> q = RCheck true).
    { destruct p; cbn [thread_step] in ET; try discriminate; try (injection ET as <- <- <- <-; intros q []).
      - injection ET as <- <- <- <-. destruct (Z.ltb _ _); [|intros q []]. intros q [<-|[]]. reflexivity.
      - destruct (Z.ltb _ _); injection ET as <- <- <- <-; intros q []. }
    assert (KEEP : forall k, served (m_cfg s) tr k -> In (ECall k) tr -> served c (tr ++ [ev]) k).
    { intros k SV B. destruct (string_dec (cf_jwt c) (cf_jwt (m_cfg s))) as [EJ|NJ].
      - apply served_app. eapply served_settings; eauto.
      - left. exists tr, [], i. split; [|exact B].
        destruct p; cbn [thread_step] in ET; try discriminate; try (injection ET as <- <- <- <-; now destruct NJ).
        + destruct (Z.ltb _ _); injection ET as <- <- <- <-; now destruct NJ.
        + injection ET as <- <- <- <-. reflexivity. }
    split; cbn.
    + intros k q H F. apply threads_after in H; auto. apply in_or_app. left. destruct H as [(-> & ->)|[(N & H)|(_ & H)]].
      * apply (SB i p EN). destruct p; cbn [thread_step] in ET; try discriminate; try exact I;
          try (destruct bg; [|exact I]); try (injection ET as <- <- <- <-; exact F).
        -- destruct (Z.ltb _ _); injection ET as <- <- <- <-; exact F.
        -- injection ET as <- <- <- <-. destruct ans; exact F.
      * eauto.
      * apply NEW in H. subst. destruct F.
    + intros k q H F. apply threads_after in H; auto. destruct H as [(-> & ->)|[(N & H)|(_ & H)]].
      * destruct p; cbn [thread_step] in ET; try discriminate.
        -- injection ET as <- <- <- <-. rewrite RF in F. destruct F; discriminate.
        -- injection ET as <- <- <- <-. destruct (String.eqb _ _); destruct F; discriminate.
        -- injection ET as <- <- <- <-. destruct (Z.ltb_spec (cf_min (m_cfg s)) (until (cf_exp (m_cfg s)) (m_now s))) as [LT|];
             [|destruct F; discriminate].
           right. exists (cf_exp (m_cfg s)), (m_now s). split; [apply in_or_app; right; now left|]. split; auto.
           destruct (co_exp _ _ CO) as [(k & bg & j & H)|H]; auto.
           destruct (co_mid _ _ CO _ _ _ H) as (_ & tr' & ->). apply whole_stores_next in W. destruct W as (e & W). discriminate.
        -- injection ET as <- <- <- <-. apply served_app. apply (SO i PGrace EN). auto.
        -- injection ET as <- <- <- <-. destruct F; discriminate.
        -- destruct (Z.ltb _ _); injection ET as <- <- <- <-; destruct bg; destruct F; discriminate.
        -- injection ET as <- <- <- <-. destruct F; discriminate.
        -- injection ET as <- <- <- <-. destruct ans; [destruct F; discriminate|]. destruct bg; destruct F; discriminate.
        -- injection ET as <- <- <- <-. destruct F; discriminate.
        -- injection ET as <- <- <- <-. destruct bg; [destruct F; discriminate|].
           destruct (co_mid _ _ CO _ _ _ EN) as (EJ & tr' & ->). left. cbn. rewrite EJ.
           exists tr', [EExp i (kept j)], i. rewrite <- app_assoc. split; [reflexivity|].
           pose proof (SB i _ EN I) as B. apply in_app_or in B. destruct B as [B|[B|[]]]; [exact B|discriminate].
      * assert (SV : served (m_cfg s) tr k) by eauto. apply KEEP; auto. apply (SB k q H). destruct F; subst; exact I.
      * apply NEW in H. destruct F; congruence.
Qed.

Theorem served_live c now tr s i j t a b :
  exec (fresh c now) tr s -> cf_refresh c = true -> cf_exp c = kept (cf_jwt c) -> whole_stores tr ->
  tr = a ++ EReturn i j false t :: b ->
  (exists a1 a2 k, a = a1 ++ EJwt k j :: a2 /\ In (ECall i) a1) \/
  (exists t', In (EUntil i (kept j) t') a /\ (cf_min c < until (kept j) t')%Z).
Proof.
  intros H RF E W ->. destruct (exec_split _ _ _ H _ _ _ eq_refl) as (s1 & ch & s2 & H1 & HS).
  assert (W1 : whole_stores a) by (eapply whole_stores_prefix; exact W).
  assert (SV : serving a s1 /\ cf_refresh (m_cfg s1) = true).
  { clear - H1 RF E W1. revert W1. induction H1 as [|tr s1 ch s2 evs HE IH HS]; intros W1.
    - split; [|exact RF]. split; cbn; intros [|i] p; discriminate.
    - pose proof (whole_stores_prefix _ _ W1) as W0. destruct (IH W0) as (SV & R). pose proof (step_effect _ _ _ _ HS) as EF. split.
      + eapply serving_step; eauto. eapply exec_consistent; eauto.
      + assert (X : exec (fresh c now) (tr ++ evs) s2) by (econstructor; eauto).
        apply exec_settings in X. destruct X as (-> & _). exact RF. }
  destruct SV as ([SB SO] & _). apply step_effect in HS. inversion HS as [| |i0 ans p c0 p' new ev EN ET]; subst.
  destruct p; cbn [thread_step] in ET; try discriminate; try (destruct (Z.ltb _ _); discriminate).
  injection ET as <- <- <- -> <- -> _.
  destruct (SO i _ EN (or_intror eq_refl)) as [L|(e & t' & HI & -> & M)]; [left; exact L|right].
  exists t'. split; auto. apply exec_settings in H1. destruct H1 as (_ & M1 & _). cbn in M1. now rewrite <- M1.
Qed.

(** *** C46 *)
Definition tried_pc (p : pc) : Prop := match p with RAsk _ | RJwt _ _ | RExp _ _ | PReturn _ | PDone => True | _ => False end.
Definition asked_pc (p : pc) : Prop := match p with RJwt _ _ | RExp _ _ | PReturn _ | PDone => True | _ => False end.

Record limited (tr : list event) (s : machine) : Prop := {
  li_now : forall i t, In (EAttempt i t) tr -> (t <= cf_tried (m_cfg s) /\ t <= m_now s)%Z;
  li_ask_now : forall i t, In (EAsk i t) tr -> (t <= m_now s)%Z;
  li_known : forall i t, In (EAttempt i t) tr \/ In (EAsk i t) tr -> exists p, nth_error (m_threads s) i = Some p;
  li_once : forall i t p, In (EAttempt i t) tr -> nth_error (m_threads s) i = Some p -> tried_pc p;
  li_asked : forall i t p, In (EAsk i t) tr -> nth_error (m_threads s) i = Some p -> asked_pc p;
  li_ask : forall i bg, nth_error (m_threads s) i = Some (RAsk bg) -> exists t, In (EAttempt i t) tr /\ (t <= m_now s)%Z }.

Lemma in_snoc {A} (x y : A) l : In x (l ++ [y]) -> In x l \/ x = y.
Proof. intros H. apply in_app_or in H. destruct H as [H|[H|[]]]; auto. Qed.

Lemma new_pcs c now i p ans c' p' new ev : thread_step exp_of c now i p ans = Some (c', p', new, ev) ->
  forall q, In q new -> q = RCheck true.
Proof.
  intros ET. destruct p; cbn [thread_step] in ET; try discriminate; try (injection ET as <- <- <- <-; intros q []).
  - injection ET as <- <- <- <-. destruct (Z.ltb _ _); [|intros q []]. intros q [<-|[]]. reflexivity.
  - destruct (Z.ltb _ _); injection ET as <- <- <- <-; intros q [].
Qed.

Lemma limited_step tr s ch s2 evs : limited tr s -> effect s ch s2 evs -> limited (tr ++ evs) s2.
Proof.
  intros [L1 L2 L3 L4 L5 L6] EF. destruct EF as [d Hd| |i ans p c p' new ev EN ET].
  - rewrite app_nil_r. split; cbn; eauto.
    + intros i t H. specialize (L1 i t H). lia.
    + intros i t H. specialize (L2 i t H). lia.
    + intros i bg H. destruct (L6 i bg H) as (t & A & B). exists t. split; auto. lia.
  - assert (OLD : forall i p, nth_error (m_threads s) i = Some p -> nth_error (m_threads s ++ [PStart]) i = Some p).
    { intros i p H. rewrite nth_error_app1; auto. eapply nth_lt; exact H. }
    assert (BACK : forall i p t, (In (EAttempt i t) tr \/ In (EAsk i t) tr) -> nth_error (m_threads s ++ [PStart]) i = Some p ->
              nth_error (m_threads s) i = Some p).
    { intros i p t H HN. destruct (L3 i t H) as (q & HQ). rewrite (OLD _ _ HQ) in HN. congruence. }
    split; cbn.
    + intros i t H. apply in_snoc in H. destruct H as [H|H]; [eauto|discriminate].
    + intros i t H. apply in_snoc in H. destruct H as [H|H]; [eauto|discriminate].
    + intros i t H. assert (K : In (EAttempt i t) tr \/ In (EAsk i t) tr)
        by (destruct H as [H|H]; apply in_snoc in H; destruct H as [H|H]; auto; discriminate).
      destruct (L3 i t K) as (p & HP). eauto.
    + intros i t p H HN. apply in_snoc in H. destruct H as [H|H]; [|discriminate]. apply (L4 i t p H). eapply BACK; eauto.
    + intros i t p H HN. apply in_snoc in H. destruct H as [H|H]; [|discriminate]. apply (L5 i t p H). eapply BACK; eauto.
    + intros i bg H. destruct (Nat.lt_ge_cases i (List.length (m_threads s))) as [L|L].
      * rewrite nth_error_app1 in H by auto. destruct (L6 i bg H) as (t & A & B). exists t. split; auto. apply in_or_app. auto.
      * rewrite nth_error_app2 in H by auto. destruct (i - List.length (m_threads s)) as [|[|]]; discriminate.
  - pose proof (nth_lt _ _ _ EN) as Li. pose proof (new_pcs _ _ _ _ _ _ _ _ _ ET) as NEW.
    assert (FWD : forall k q, nth_error (m_threads s) k = Some q -> exists q', nth_error (update i p' (m_threads s) ++ new) k = Some q').
    { intros k q H. rewrite nth_error_app1 by (rewrite update_length; eapply nth_lt; exact H).
      destruct (Nat.eq_dec i k) as [->|N]; [rewrite (update_same _ _ _ _ H)|rewrite update_other by auto]; eauto. }
    assert (EV : forall k t, (ev = EAttempt k t \/ ev = EAsk k t) -> k = i /\ t = m_now s).
    { intros k t H. destruct p; cbn [thread_step] in ET; try discriminate; try (injection ET as <- <- <- <-; destruct H as [H|H]; try discriminate; injection H as <- <-; auto).
      destruct (Z.ltb _ _); injection ET as <- <- <- <-; destruct H; discriminate. }
    assert (TR : (cf_tried c = cf_tried (m_cfg s) /\ forall k t, ev <> EAttempt k t) \/ (cf_tried c = m_now s)).
    { destruct p; cbn [thread_step] in ET; try discriminate; try (injection ET as <- <- <- <-; left; split; [reflexivity|discriminate]).
      - destruct (Z.ltb _ _); injection ET as <- <- <- <-; left; (split; [reflexivity|discriminate]).
      - injection ET as <- <- <- <-. right. reflexivity. }
    split; cbn.
    + intros k t H. apply in_snoc in H. destruct H as [H|H].
      * specialize (L1 k t H). destruct TR as [(-> & _)| ->]; lia.
      * destruct (EV k t) as (-> & ->); [auto|]. destruct TR as [(_ & N)| ->]; [now apply eq_sym, N in H|lia].
    + intros k t H. apply in_snoc in H. destruct H as [H|H]; [eauto|]. destruct (EV k t) as (-> & ->); [auto|lia].
    + intros k t H. assert (K : exists q, nth_error (m_threads s) k = Some q).
      { destruct H as [H|H]; apply in_snoc in H; destruct H as [H|H]; eauto; (destruct (EV k t) as (-> & _); [auto|eauto]). }
      destruct K as (q & K). eauto.
    + intros k t q H HN. apply threads_after in HN; auto. apply in_snoc in H. destruct HN as [(-> & ->)|[(N & HN)|(G & HN)]].
      * destruct H as [H|H].
        -- pose proof (L4 i t p H EN) as T.
           destruct p; try destruct T; cbn [thread_step] in ET; try discriminate; injection ET as <- <- <- <-; try exact I;
             try (destruct bg; exact I). destruct ans; [exact I|]. destruct bg; exact I.
        -- destruct p; cbn [thread_step] in ET; try discriminate; try (injection ET as <- <- <- <-; discriminate).
           ++ destruct (Z.ltb _ _); injection ET as <- <- <- <-; discriminate.
           ++ injection ET as <- <- <- <-. exact I.
      * destruct H as [H|H]; [eauto|]. destruct (EV k t) as (-> & _); [auto|]. now destruct N.
      * exfalso. destruct H as [H|H].
        -- destruct (L3 k t (or_introl H)) as (q' & Q). apply nth_lt in Q. lia.
        -- destruct (EV k t) as (-> & _); [auto|]. lia.
    + intros k t q H HN. apply threads_after in HN; auto. apply in_snoc in H. destruct HN as [(-> & ->)|[(N & HN)|(G & HN)]].
      * destruct H as [H|H].
        -- pose proof (L5 i t p H EN) as T.
           destruct p; try destruct T; cbn [thread_step] in ET; try discriminate; injection ET as <- <- <- <-; try exact I; destruct bg; exact I.
        -- destruct p; cbn [thread_step] in ET; try discriminate; try (injection ET as <- <- <- <-; discriminate).
           ++ destruct (Z.ltb _ _); injection ET as <- <- <- <-; discriminate.
           ++ injection ET as <- <- <- <-. destruct ans; [exact I|]. destruct bg; exact I.
      * destruct H as [H|H]; [eauto|]. destruct (EV k t) as (-> & _); [auto|]. now destruct N.
      * exfalso. destruct H as [H|H].
        -- destruct (L3 k t (or_intror H)) as (q' & Q). apply nth_lt in Q. lia.
        -- destruct (EV k t) as (-> & _); [auto|]. lia.
    + intros k bg H. apply threads_after in H; auto. destruct H as [(-> & E)|[(N & H)|(_ & H)]].
      * exists (m_now s). split; [|lia]. apply in_or_app. right. left.
        destruct p; cbn [thread_step] in ET; try discriminate; try (injection ET as <- <- <- <-; discriminate).
        -- injection ET as <- <- <- <-. destruct (cf_refresh _); discriminate.
        -- injection ET as <- <- <- <-. destruct (String.eqb _ _); discriminate.
        -- injection ET as <- <- <- <-. destruct (Z.ltb _ _); discriminate.
        -- destruct (Z.ltb _ _); injection ET as <- <- <- <-; try discriminate. destruct bg0; discriminate.
        -- injection ET as <- <- <- <-. reflexivity.
        -- injection ET as <- <- <- <-. destruct ans; [discriminate|]. destruct bg0; discriminate.
        -- injection ET as <- <- <- <-. destruct bg0; discriminate.
      * destruct (L6 k bg H) as (t & A & B). exists t. split; auto. apply in_or_app. auto.
      * apply NEW in H. discriminate.
Qed.

Lemma exec_limited c now tr s : exec (fresh c now) tr s -> limited tr s.
Proof.
  induction 1 as [|tr s1 ch s2 evs HE IH HS].
  - split; cbn.
    + intros ? ? [].
    + intros ? ? [].
    + intros ? ? [[]|[]].
    + intros ? ? ? [].
    + intros ? ? ? [].
    + intros [|k] bg; discriminate.
  - eapply limited_step; [exact IH|]. eapply step_effect; exact HS.
Qed.

(** A goroutine that has passed the rate limit did so just now. *)
Definition passing (tr : list event) (s : machine) : Prop :=
  forall i bg, nth_error (m_threads s) i = Some (RTried bg) ->
    exists tr' t, tr = tr' ++ [EPass i t] /\ (minute <= since (cf_tried (m_cfg s)) t)%Z /\ (t <= m_now s)%Z.
Lemma passing_step tr s ch s2 evs : passing tr s -> effect s ch s2 evs -> whole_attempts (tr ++ evs) -> passing (tr ++ evs) s2.
Proof.
  intros P EF W. destruct EF as [d Hd| |i ans p c p' new ev EN ET].
  - rewrite app_nil_r. intros k bg H. cbn in *. destruct (P k bg H) as (tr' & t & E & M & L). exists tr', t. repeat split; auto. lia.
  - intros k bg H. cbn in *. exfalso. destruct (Nat.lt_ge_cases k (List.length (m_threads s))) as [L|L].
    + rewrite nth_error_app1 in H by auto. destruct (P k bg H) as (tr' & t & -> & _). apply whole_attempts_next in W.
      destruct W as (e & W). discriminate.
    + rewrite nth_error_app2 in H by auto. destruct (k - List.length (m_threads s)) as [|[|]]; discriminate.
  - pose proof (nth_lt _ _ _ EN) as Li. pose proof (new_pcs _ _ _ _ _ _ _ _ _ ET) as NEW.
    intros k bg H. cbn in *. apply threads_after in H; auto. destruct H as [(-> & E)|[(N & H)|(_ & H)]].
    + destruct p; cbn [thread_step] in ET; try discriminate; try (injection ET as <- <- <- <-; discriminate).
      * injection ET as <- <- <- <-. destruct (cf_refresh _); discriminate.
      * injection ET as <- <- <- <-. destruct (String.eqb _ _); discriminate.
      * injection ET as <- <- <- <-. destruct (Z.ltb _ _); discriminate.
      * destruct (Z.ltb_spec (since (cf_tried (m_cfg s)) (m_now s)) minute) as [LT|GE]; injection ET as <- <- <- <-; [destruct bg0; discriminate|].
        exists tr, (m_now s). repeat split; auto. lia.
      * injection ET as <- <- <- <-. destruct ans; [discriminate|]. destruct bg0; discriminate.
      * injection ET as <- <- <- <-. destruct bg0; discriminate.
    + exfalso. destruct (P k bg H) as (tr' & t & -> & _). apply whole_attempts_next in W. destruct W as (e & ->).
      destruct p; cbn [thread_step] in ET; try discriminate; try (injection ET as <- <- <- ? ?; congruence).
      destruct (Z.ltb _ _); discriminate.
    + apply NEW in H. discriminate.
Qed.
Lemma exec_passing c now tr s : exec (fresh c now) tr s -> whole_attempts tr -> passing tr s.
Proof.
  induction 1 as [|tr s1 ch s2 evs HE IH HS]; intros W; [intros [|i] bg; discriminate|].
  apply step_effect in HS. eapply passing_step; eauto. apply IH. eapply whole_attempts_prefix; exact W.
Qed.

Lemma since_minute a b : (minute <= since a b)%Z -> (minute <= b - a)%Z.
Proof. unfold since, sat, minute, second. lia. Qed.

Theorem attempts_apart c now tr s a i t b j t' d :
  exec (fresh c now) tr s -> whole_attempts tr ->
  tr = a ++ EAttempt i t :: b ++ EAttempt j t' :: d -> (minute <= t' - t)%Z.
Proof.
  intros H W ->. rewrite app_comm_cons, app_assoc in *.
  destruct (exec_split _ _ _ H _ _ _ eq_refl) as (s1 & ch & s2 & H1 & HS). apply whole_attempts_prefix in W.
  pose proof (exec_passing _ _ _ _ H1 W) as P. pose proof (exec_limited _ _ _ _ H1) as L.
  apply step_effect in HS. inversion HS as [| |i0 ans p c0 p' new ev EN ET]; subst.
  destruct p; cbn [thread_step] in ET; try discriminate; try (destruct (Z.ltb _ _); discriminate).
  injection ET as <- <- <- -> <-. destruct (P _ _ EN) as (tr' & t0 & _ & M & T). apply since_minute in M.
  destruct (li_now _ _ L i t) as (A & _); [apply in_or_app; right; now left|]. lia.
Qed.

Theorem ask_after_attempt c now tr s a i t b :
  exec (fresh c now) tr s -> tr = a ++ EAsk i t :: b -> exists t0, In (EAttempt i t0) a /\ (t0 <= t)%Z.
Proof.
  intros H ->. destruct (exec_split _ _ _ H _ _ _ eq_refl) as (s1 & ch & s2 & H1 & HS).
  pose proof (exec_limited _ _ _ _ H1) as L. apply step_effect in HS. inversion HS as [| |i0 ans p c0 p' new ev EN ET]; subst.
  destruct p; cbn [thread_step] in ET; try discriminate; try (destruct (Z.ltb _ _); discriminate).
  injection ET as <- _ <- -> <-. exact (li_ask _ _ L _ _ EN).
Qed.

Theorem ask_once c now tr s a i t b : exec (fresh c now) tr s -> tr = a ++ EAsk i t :: b -> forall t', ~ In (EAsk i t') b.
Proof.
  intros H -> t' I. apply in_split in I. destruct I as (b1 & b2 & ->). rewrite app_comm_cons, app_assoc in H.
  destruct (exec_split _ _ _ H _ _ _ eq_refl) as (s1 & ch & s2 & H1 & HS).
  pose proof (exec_limited _ _ _ _ H1) as L. apply step_effect in HS. inversion HS as [| |i0 ans p c0 p' new ev EN ET]; subst.
  destruct p; cbn [thread_step] in ET; try discriminate; try (destruct (Z.ltb _ _); discriminate).
  injection ET as <- _ <- -> <-. refine (li_asked _ _ L i t _ _ EN). apply in_or_app. right. now left.
Qed.
Theorem attempt_once c now tr s a i t b : exec (fresh c now) tr s -> tr = a ++ EAttempt i t :: b -> forall t', ~ In (EAttempt i t') b.
Proof.
  intros H -> t' I. apply in_split in I. destruct I as (b1 & b2 & ->). rewrite app_comm_cons, app_assoc in H.
  destruct (exec_split _ _ _ H _ _ _ eq_refl) as (s1 & ch & s2 & H1 & HS).
  pose proof (exec_limited _ _ _ _ H1) as L. apply step_effect in HS. inversion HS as [| |i0 ans p c0 p' new ev EN ET]; subst.
  destruct p; cbn [thread_step] in ET; try discriminate; try (destruct (Z.ltb _ _); discriminate).
  injection ET as <- <- <- -> <-. refine (li_once _ _ L i t _ _ EN). apply in_or_app. right. now left.
Qed.

Theorem asks_apart c now tr s a i t b j t' d :
  exec (fresh c now) tr s -> whole_attempts tr -> prompt tr ->
  tr = a ++ EAsk i t :: b ++ EAsk j t' :: d -> (minute <= t' - t)%Z.
Proof.
  intros H W P E.
  assert (N : i <> j).
  { intros <-. apply (ask_once _ _ _ _ _ _ _ _ H E t'). apply in_or_app. right. now left. }
  assert (LE : (t <= t')%Z).
  { rewrite app_comm_cons, app_assoc in E. subst tr. destruct (exec_split _ _ _ H _ _ _ eq_refl) as (s1 & ch & s2 & H1 & HS).
    pose proof (exec_limited _ _ _ _ H1) as L. apply step_effect in HS. inversion HS as [| |i0 ans p c0 p' new ev EN ET]; subst.
    destruct p; cbn [thread_step] in ET; try discriminate; try (destruct (Z.ltb _ _); discriminate).
    injection ET as <- _ <- -> <-. apply (li_ask_now _ _ L i t). apply in_or_app. right. now left. }
  assert (I1 : In (EAttempt i t) tr) by (apply P; rewrite E; apply in_or_app; right; now left).
  assert (I2 : In (EAttempt j t') tr) by (apply P; rewrite E; apply in_or_app; right; right; apply in_or_app; right; now left).
  apply in_split in I1. destruct I1 as (x & y & EX). pose proof I2 as I2'. rewrite EX in I2'. apply in_app_or in I2'.
  destruct I2' as [I2'|[I2'|I2']].
  - apply in_split in I2'. destruct I2' as (x1 & x2 & ->). rewrite <- app_assoc in EX. cbn in EX.
    pose proof (attempts_apart _ _ _ _ _ _ _ _ _ _ _ H W EX) as M. unfold minute, second in *. lia.
  - injection I2' as -> ->. now destruct N.
  - apply in_split in I2'. destruct I2' as (y1 & y2 & ->). eapply attempts_apart; eauto.
Qed.

(** *** C47 *)
Lemma stored_app a b : stored (a ++ b) = stored a ++ stored b.
Proof. induction a as [|[] a IH]; cbn; congruence. Qed.
Lemma last_app_in {A} (l m : list A) d : In (last (l ++ m) d) (last l d :: m).
Proof.
  destruct m as [|x m] using rev_ind; [rewrite app_nil_r; now left|]. clear IHm. right.
  rewrite app_assoc, last_last. apply in_or_app. right. now left.
Qed.
Lemma jwt_held c now tr s : exec (fresh c now) tr s -> cf_jwt (m_cfg s) = held c tr.
Proof.
  induction 1 as [|tr s1 ch s2 evs HE IH HS]; [reflexivity|]. unfold held in *. rewrite stored_app.
  apply step_effect in HS. destruct HS as [d Hd| |i ans p c0 p' new ev EN ET]; cbn [m_cfg stored]; rewrite ?app_nil_r; auto.
  destruct p; cbn [thread_step] in ET; try discriminate; try (injection ET as <- <- <- <-; cbn [stored]; rewrite app_nil_r; exact IH).
  - destruct (Z.ltb _ _); injection ET as <- <- <- <-; cbn [stored]; rewrite app_nil_r; exact IH.
  - injection ET as <- <- <- <-. cbn. now rewrite last_last.
Qed.

Lemma until_mono e t T : (t <= T)%Z -> (until e T <= until e t)%Z.
Proof. unfold until, sat. lia. Qed.

Definition failing (min : Z) (set : list string) (now : time) (p : pc) : Prop :=
  match p with
  | RCheck false | RTried false | RAsk false | RJwt false _ | RExp false _ | PReturn true =>
      exists x t, In x set /\ (t <= now)%Z /\ (x = "" \/ (until (kept x) t <= min)%Z)
  | _ => True
  end.
Lemma failing_mono min set set' now now' p : incl set set' -> (now <= now')%Z -> failing min set now p -> failing min set' now' p.
Proof.
  intros I L. assert (K : (exists x t, In x set /\ (t <= now)%Z /\ (x = "" \/ (until (kept x) t <= min)%Z)) ->
    exists x t, In x set' /\ (t <= now')%Z /\ (x = "" \/ (until (kept x) t <= min)%Z)).
  { intros (x & t & A & B & C). exists x, t. repeat split; auto. lia. }
  destruct p as [| | | |[]|[]|[]|[]|[]|[]|]; cbn; auto.
Qed.

Lemma exec_failing c now a : cf_refresh c = true -> cf_exp c = kept (cf_jwt c) ->
  forall tr s, exec (fresh c now) tr s -> whole_stores tr -> forall b1, tr = a ++ b1 ->
  forall i p, In (ECall i) b1 -> nth_error (m_threads s) i = Some p ->
  failing (cf_min c) (held c a :: stored b1) (m_now s) p.
Proof.
  intros RF E tr s H. induction H as [|tr s1 ch s2 evs HE IH HS]; intros W b1 EB i p HI HN.
  { destruct i; discriminate. }
  pose proof (whole_stores_prefix _ _ W) as W0. pose proof (exec_consistent _ _ _ _ HE E W0) as CO.
  pose proof (exec_settings _ _ _ HE) as (RF1 & M1 & _ & _). cbn in RF1, M1. rewrite RF in RF1.
  pose proof (jwt_held _ _ _ _ HE) as JH. pose proof (step_effect _ _ _ _ HS) as EF.
  assert (JIN : forall b, tr = a ++ b -> In (cf_jwt (m_cfg s1)) (held c a :: stored b)).
  { intros b ->. rewrite JH. unfold held. rewrite stored_app. apply last_app_in. }
  destruct EF as [d Hd| |k ans q c0 p' new ev EN ET].
  - rewrite app_nil_r in EB, W. cbn in *. eapply failing_mono; [apply incl_refl| |eapply (IH W0 b1 EB); eauto]. lia.
  - cbn [m_now m_threads] in *. destruct b1 as [|y b1] using rev_ind; [destruct HI|]. clear IHb1.
    rewrite app_assoc in EB. apply app_inj_tail in EB. destruct EB as (EB & <-).
    rewrite stored_app. cbn [stored]. rewrite app_nil_r.
    destruct (Nat.lt_ge_cases i (List.length (m_threads s1))) as [L|L].
    + rewrite nth_error_app1 in HN by auto. apply in_snoc in HI. destruct HI as [HI|HI]; [eapply IH; eauto|]. injection HI as ->. lia.
    + rewrite nth_error_app2 in HN by auto. destruct (i - List.length (m_threads s1)) as [|[|]]; try discriminate. injection HN as <-. exact I.
  - cbn [m_now m_threads] in *. destruct b1 as [|y b1] using rev_ind; [destruct HI|]. clear IHb1.
    rewrite app_assoc in EB. apply app_inj_tail in EB. destruct EB as (EB & <-).
    assert (HI' : In (ECall i) b1).
    { apply in_snoc in HI. destruct HI as [HI|HI]; auto.
      destruct q; cbn [thread_step] in ET; try discriminate; try (injection ET as <- <- <- <-; discriminate).
      destruct (Z.ltb _ _); injection ET as <- <- <- <-; discriminate. }
    assert (SUB : incl (held c a :: stored b1) (held c a :: stored (b1 ++ [ev]))).
    { rewrite stored_app. intros z [Z|Z]; [now left|]. right. apply in_or_app. auto. }
    pose proof (nth_lt _ _ _ EN) as Li. pose proof (new_pcs _ _ _ _ _ _ _ _ _ ET) as NEW.
    apply threads_after in HN; auto. destruct HN as [(-> & ->)|[(N & HN)|(_ & HN)]].
    + pose proof (IH W0 b1 EB k q HI' EN) as F.
      assert (G : failing (cf_min c) (held c a :: stored b1) (m_now s1) p'); [|eapply failing_mono; [exact SUB|apply Z.le_refl|exact G]].
      destruct q; cbn [thread_step] in ET; try discriminate.
      * injection ET as <- <- <- <-. rewrite RF1. exact I.
      * injection ET as <- <- <- <-. destruct (String.eqb_spec (cf_jwt (m_cfg s1)) ""); [|exact I].
        exists (cf_jwt (m_cfg s1)), (m_now s1). split; [now apply JIN|]. split; [lia|auto].
      * injection ET as <- <- <- <-. destruct (Z.ltb_spec (cf_min (m_cfg s1)) (until (cf_exp (m_cfg s1)) (m_now s1))) as [LT|GE]; [exact I|].
        exists (cf_jwt (m_cfg s1)), (m_now s1). split; [now apply JIN|]. split; [lia|]. right. rewrite <- M1.
        destruct (co_exp _ _ CO) as [(k' & bg & j & X)|X]; [|now rewrite <- X].
        destruct (co_mid _ _ CO _ _ _ X) as (_ & tr' & ->). apply whole_stores_next in W. destruct W as (e & W). discriminate.
      * injection ET as <- <- <- <-. exact I.
      * injection ET as <- <- <- <-. exact I.
      * destruct (Z.ltb _ _); injection ET as <- <- <- <-; destruct bg; try exact I; exact F.
      * injection ET as <- <- <- <-. exact F.
      * injection ET as <- <- <- <-. destruct ans; [exact F|]. destruct bg; [exact I|exact F].
      * injection ET as <- <- <- <-. exact F.
      * injection ET as <- <- <- <-. destruct bg; exact I.
    + eapply failing_mono; [exact SUB|apply Z.le_refl|eapply IH; eauto].
    + apply NEW in HN. subst. exact I.
Qed.

Theorem held_served c now tr s a b1 b2 i j err t :
  exec (fresh c now) tr s -> cf_refresh c = true -> cf_exp c = kept (cf_jwt c) -> whole_stores tr ->
  tr = a ++ b1 ++ EReturn i j err t :: b2 -> In (ECall i) b1 ->
  (forall x, In x (held c a :: stored b1) -> x <> "" /\ (cf_min c < until (kept x) t)%Z) ->
  err = false /\ In j (held c a :: stored b1).
Proof.
  intros H RF E W -> HI LIVE. rewrite app_assoc in *. destruct (exec_split _ _ _ H _ _ _ eq_refl) as (s1 & ch & s2 & H1 & HS).
  assert (W1 : whole_stores (a ++ b1)) by (eapply whole_stores_prefix; exact W).
  apply step_effect in HS. inversion HS as [| |i0 ans p c0 p' new ev EN ET]; subst.
  destruct p; cbn [thread_step] in ET; try discriminate; try (destruct (Z.ltb _ _); discriminate).
  injection ET as <- <- <- -> <- -> <-.
  pose proof (exec_failing c now a RF E _ _ H1 W1 b1 eq_refl i _ HI EN) as F. split.
  - destruct err; [|reflexivity]. exfalso. destruct F as (x & t0 & X & T & D). destruct (LIVE x X) as (N & L).
    destruct D as [D|D]; [contradiction|]. pose proof (until_mono (kept x) _ _ T). lia.
  - rewrite (jwt_held _ _ _ _ H1). unfold held. rewrite stored_app. apply last_app_in.
Qed.

(** Without refreshing, the configured mark is returned. *)
Theorem no_refresh c now tr s a i j err t b :
  exec (fresh c now) tr s -> cf_refresh c = false -> tr = a ++ EReturn i j err t :: b -> j = cf_jwt c /\ err = false.
Proof.
  intros H RF ->. destruct (exec_split _ _ _ H _ _ _ eq_refl) as (s1 & ch & s2 & H1 & HS).
  assert (K : m_cfg s1 = c /\ forall k p, nth_error (m_threads s1) k = Some p -> p = PStart \/ p = PReturn false \/ p = PDone).
  { clear - H1 RF. induction H1 as [|tr s1 ch s2 evs HE IH HS]; [split; [reflexivity|intros [|k] p; discriminate]|].
    destruct IH as (EC & K). apply step_effect in HS. destruct HS as [d Hd| |k ans p c0 p' new ev EN ET]; cbn; auto.
    - split; auto. intros k p HN. destruct (Nat.lt_ge_cases k (List.length (m_threads s1))) as [L|L].
      + rewrite nth_error_app1 in HN by auto. eauto.
      + rewrite nth_error_app2 in HN by auto. destruct (k - List.length (m_threads s1)) as [|[|]]; try discriminate. injection HN as <-. auto.
    - pose proof (nth_lt _ _ _ EN) as Li.
      destruct (K _ _ EN) as [-> | [-> | ->]]; cbn [thread_step] in ET; try discriminate; injection ET as <- <- <- <-; rewrite EC, ?RF;
        (split; [reflexivity|]); intros k' q HN; apply threads_after in HN; auto;
        (destruct HN as [(-> & ->)|[(N & HN)|(_ & [])]]; [auto|eauto]). }
  destruct K as (EC & K). apply step_effect in HS. inversion HS as [| |i0 ans p c0 p' new ev EN ET]; subst.
  destruct p; cbn [thread_step] in ET; try discriminate; try (destruct (Z.ltb _ _); discriminate).
  injection ET as <- <- <- -> <- -> <-. destruct (K _ _ EN) as [X|[X|X]]; try discriminate. injection X as ->. auto.
Qed.

End Machine.

(** *** C68 *)
Lemma wrap64_id x : (- 2 ^ 63 <= x < 2 ^ 63)%Z -> wrap64 x = x.
Proof. intros H. unfold wrap64. rewrite Z.mod_small by lia. lia. Qed.

Lemma obtained_spec marks : forall typ j, In (typ, j) (obtained_marks marks) <-> In (typ, Ok j) marks.
Proof.
  induction marks as [|[ty [x| |]] marks IH]; intros typ j; cbn; [tauto| | |].
  - rewrite IH. split; (intros [H|H]; [left; congruence|auto]).
  - rewrite IH. split; [auto|intros [H|H]; [discriminate|auto]].
  - rewrite IH. split; [auto|intros [H|H]; [discriminate|auto]].
Qed.

Theorem entity_configuration id hints md ks lifetime now marks :
  (lifetime <= 9223372036)%Z ->
  let s := config_payload (new_entity id hints md ks lifetime) now marks in
  st_iss s = id /\ st_sub s = id /\ st_iat s = now /\
  st_exp s = (now + (if Z.leb lifetime 0 then 86400 else lifetime) * 1000000000)%Z /\ (st_iat s < st_exp s)%Z /\
  st_jwks s = ks /\ st_hints s = hints /\ st_metadata s = md /\
  st_marks s = flat_map (fun m => match snd m with Ok j => [(fst m, j)] | _ => [] end) marks.
Proof.
  intros L s.
  assert (W : wrap64 (second * wrap64 (if Z.leb lifetime 0 then 86400 else lifetime)) = ((if Z.leb lifetime 0 then 86400 else lifetime) * 1000000000)%Z).
  { unfold second. destruct (Z.leb_spec lifetime 0) as [N|P]; [reflexivity|].
    assert (I : wrap64 lifetime = lifetime) by (apply wrap64_id; lia). rewrite I, wrap64_id by lia. lia. }
  assert (X : st_exp s = (now + (if Z.leb lifetime 0 then 86400 else lifetime) * 1000000000)%Z).
  { unfold s, config_payload, new_entity. cbn [st_exp fe_lifetime]. now rewrite W. }
  rewrite X. repeat split.
  - unfold s. cbn [st_iat config_payload]. destruct (Z.leb_spec lifetime 0); lia.
  - unfold s. cbn [st_marks config_payload]. clear. induction marks as [|[ty [x| |]] marks IH]; cbn; congruence.
Qed.
